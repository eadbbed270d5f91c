(** * TextEndProofs: lemmas for C94 - what a connection carries upwards, for all three protocols. *)
From Verif Require Import Base UtilsModel UtilsProofs UtfProofs OptionsModel SpecText SpecWire WireProofs CmppModel SpecCmpp CmppProofs CmppSubmitProofs SgipModel SpecSgip SgipProofs SpecSmgp SmgpModel SmgpProofs FrameModel SpecServer ServerModel ServerProofs
  PropFrame PropCmpp PropCmpp2 PropSgip PropSmgp PropServer PropWindow PropAnswers PropLogins CmppBuildProofs ClientModel SpecClient ClientProofs SubmitEndProofs SpecTextEnd.
From Verif Require RecvModel.

(** ** Cutting a stream into packets *)
(** A packet that starts with its own length. *)
Definition sized (b : bytes) : Prop := 12 <= zlen b < 2 ^ 32 /\ firstn 4 b = be 4 (zlen b).
Lemma framed_sized b : framed b -> sized b.
Proof. intros [A B]. split; [lia|exact B]. Qed.
(** Every packet but the last has a body. *)
Fixpoint bodies (bs : list bytes) : Prop := match bs with [] => True | b :: r => (r = [] \/ 13 <= zlen b) /\ bodies r end.
Lemma dch_drain12 p buf : zlen buf = 12 -> firstn 4 buf = be 4 12 -> bytes_ok buf -> DecodeAndCheckHeader p true buf = DecodeAndCheckHeader p false buf.
Proof.
  intros L F B. unfold DecodeAndCheckHeader. rewrite L. change (12 <? 12) with false. cbv iota.
  assert (P : forall d, Peek d 12 buf = firstn 12 buf) by (intros d; unfold Peek; rewrite L; reflexivity).
  assert (Hh : zlen (firstn 12 buf) = 12) by (unfold zlen in *; rewrite firstn_length; lia).
  destruct (unpack_be (firstn 12 buf) (bytes_ok_firstn _ _ B) Hh) as (l & c & q & E & Eh & Rl & Rc & Rq). rewrite !P, E. cbn [bind].
  assert (Ll : l = 12).
  { assert (X : firstn 4 (firstn 12 buf) = be 4 l) by (rewrite Eh, firstn_app, length_be, firstn_all2 by (rewrite length_be; lia); cbn [Nat.sub]; rewrite firstn_O; apply app_nil_r).
    rewrite firstn_firstn in X. cbn [Nat.min] in X. rewrite F in X. apply (f_equal unbe) in X. rewrite !(unbe_be_small 4) in X by (change (256 ^ Z.of_nat 4) with (2 ^ 32); lia). congruence. }
  subst l. destruct (_ || _); [reflexivity|]. destruct (has_suffix _ _); [reflexivity|]. change (12 <? 12) with false. cbv iota zeta.
  assert (D : forall d, Discard d 12 buf = []).
  { intros d. unfold Discard. rewrite ?L. change (12 <=? 0) with false. change (12 <? 12) with false. cbv iota. rewrite ?orb_false_r. apply skipn_all2. unfold zlen in L. lia. }
  rewrite !D. reflexivity.
Qed.
Lemma cut_sized p drain buf tail b bs k rest : sized b -> drain = false \/ bs = [] \/ 13 <= zlen b -> bytes_ok buf -> buf ++ tail = concat (b :: bs) -> DecodeAndCheckHeader p drain buf = Ok (FPass k rest) ->
  PropFrame.wire k = b /\ rest ++ tail = concat bs /\ legal p k.
Proof.
  intros [FR FB] DR B E D. cbn [concat] in E.
  assert (L12 : 12 <= zlen buf) by (unfold DecodeAndCheckHeader in D; destruct (zlen buf <? 12) eqn:C; [discriminate D|lia]).
  assert (F4 : firstn 4 buf = be 4 (zlen b)).
  { transitivity (firstn 4 (buf ++ tail)); [rewrite firstn_app; replace (4 - length buf)%nat with 0%nat by (unfold zlen in L12; lia); rewrite firstn_O, app_nil_r; reflexivity|].
    rewrite E, firstn_app. replace (4 - length b)%nat with 0%nat by (unfold zlen in FR; lia). rewrite firstn_O, app_nil_r. exact FB. }
  assert (D0 : DecodeAndCheckHeader p drain buf = DecodeAndCheckHeader p false buf).
  { destruct drain; [|reflexivity]. destruct (Z_lt_le_dec (zlen b) 13) as [L|L]; [|apply (dch_drain p true (zlen b)); auto; lia].
    destruct DR as [DR|[->|DR]]; [discriminate DR| |lia]. rewrite app_nil_r in E.
    assert (zlen buf + zlen tail = zlen b) by (rewrite <- E, zlen_app; reflexivity). pose proof (zlen_nonneg tail).
    apply dch_drain12; [lia|rewrite F4; f_equal; lia|exact B]. }
  rewrite D0 in D. destruct (dch_any p buf B) as (fo & D' & X). rewrite D' in D. assert (fo = FPass k rest) as -> by congruence. destruct X as [LG EB].
  assert (LW : zlen (PropFrame.wire k) = zlen b).
  { assert (Y : firstn 4 buf = be 4 (12 + zlen (pk_body k))).
    { rewrite EB, wire_head. unfold SpecWire.render, SpecWire.head. cbn [map concat SpecWire.render1]. rewrite <- !app_assoc. rewrite firstn_app, length_be, firstn_all2 by (rewrite length_be; lia). cbn [Nat.sub]. rewrite firstn_O. apply app_nil_r. }
    rewrite F4 in Y. apply (f_equal unbe) in Y. destruct LG as (_ & _ & _ & L5). pose proof (zlen_nonneg (pk_body k)). rewrite !(unbe_be_small 4) in Y by (change (256 ^ Z.of_nat 4) with (2 ^ 32); lia). rewrite zlen_wire. congruence. }
  rewrite EB, <- app_assoc in E. assert (LN : length (PropFrame.wire k) = length b) by (unfold zlen in LW; lia).
  assert (W : PropFrame.wire k = b) by (apply (f_equal (firstn (length b))) in E; rewrite !firstn_app, LN, Nat.sub_diag in E; rewrite !firstn_all2 in E by lia; rewrite !firstn_O, !app_nil_r, ?firstn_all in E; exact E).
  split; [exact W|]. split; [|exact LG]. rewrite W in E. apply app_inv_head in E. exact E.
Qed.
Lemma stream_run pr es : forall c c' bs, run pr c es = Ok c' -> Forall sized bs -> pr_drain pr = false \/ bodies bs -> bytes_ok (sc_buf c) -> segs_ok es ->
  (sc_open c = true -> exists tail, sc_buf c ++ received es ++ tail = concat bs) ->
  exists l, sc_log c' = sc_log c ++ l /\ sub (map PropFrame.wire (gots l)) bs /\ sub (serves l) (gots l) /\ Forall (legal (pr_p pr)) (gots l).
Proof.
  induction es as [|e es IH]; intros c c' bs R FB DR B SG T; cbn [run] in R.
  - injection R as <-. exists []. rewrite app_nil_r. repeat constructor.
  - destruct (sc_open c) eqn:O.
    2:{ exists []. rewrite app_nil_r. split; [|repeat constructor]. apply (silent_run pr (e :: es) c c' O). cbn [run]. exact R. }
    specialize (T eq_refl). apply bind_ok in R as (c1 & E1 & R). destruct (step_got pr c e c1 E1) as (l & LG & G).
    assert (BS : bytes_ok (sc_buf c ++ seg_of e)).
    { apply Forall_app. split; [exact B|]. apply Forall_inv in SG. unfold seg_of. destruct (fst e); [exact SG|constructor|constructor|constructor|constructor]. }
    assert (RC : forall tail, sc_buf c ++ received (e :: es) ++ tail = (sc_buf c ++ seg_of e) ++ received es ++ tail).
    { intros tail. unfold received. cbn [map concat]. fold (seg_of e). rewrite <- !app_assoc. reflexivity. }
    destruct T as [tail T]. rewrite RC in T.
    assert (DH : forall b r, bs = b :: r -> pr_drain pr = false \/ r = [] \/ 13 <= zlen b) by (intros b r ->; cbn [bodies] in DR; tauto).
    assert (DT : forall b r, bs = b :: r -> pr_drain pr = false \/ bodies r) by (intros b r ->; cbn [bodies] in DR; tauto).
    destruct (sc_open c1) eqn:O1.
    2:{ exists l. split; [rewrite (silent_run pr es c1 c' O1 R); exact LG|]. destruct G as [(-> & -> & _)|(k & rest & _ & D & W & _)]; [repeat constructor|].
        destruct W as [[-> ->]|[-> W]]; [repeat constructor|].
        destruct bs as [|b bs]; [|].
        - exfalso. apply app_eq_nil in T as [T _]. rewrite T in D. cbn in D. discriminate D.
        - destruct (cut_sized _ _ _ _ b bs k rest (Forall_inv FB) (DH b bs eq_refl) BS T D) as (<- & _ & LG1). cbn [map]. split; [apply sub_take, sub_nil|]. split; [destruct W as [-> | ->]; [apply sub_nil|apply sub_take, sub_nil]|]. constructor; [exact LG1|constructor]. }
    destruct G as [(G1 & G2 & G3)|(k & rest & _ & D & W & G3)].
    + destruct (G3 O1) as [_ G4]. destruct (IH c1 c' bs R FB DR) as (l' & LG' & S1 & S2 & S3); [rewrite G4; exact BS|exact (Forall_inv_tail SG)|intros _; exists tail; rewrite G4; exact T|].
      exists (l ++ l'). rewrite LG', LG, <- app_assoc. split; [reflexivity|]. rewrite gots_app, serves_app, G1, G2. auto.
    + specialize (G3 O1). destruct bs as [|b bs]; [exfalso; apply app_eq_nil in T as [T _]; rewrite T in D; cbn in D; discriminate D|].
      destruct (cut_sized _ _ _ _ b bs k rest (Forall_inv FB) (DH b bs eq_refl) BS T D) as (W1 & T1 & LG1).
      destruct (IH c1 c' bs R (Forall_inv_tail FB) (DT b bs eq_refl)) as (l' & LG' & S1 & S2 & S3); [rewrite G3; apply (dch_bytes _ _ _ _ _ BS D)|exact (Forall_inv_tail SG)|intros _; exists tail; rewrite G3; exact T1|].
      exists (l ++ l'). rewrite LG', LG, <- app_assoc. split; [reflexivity|]. rewrite gots_app, serves_app.
      destruct W as [[-> ->]|[-> W]]; [split; [apply sub_skip; exact S1|split; [exact S2|exact S3]]|]. cbn [app map]. rewrite W1. split; [apply sub_take; exact S1|].
      split; [destruct W as [-> | ->]; cbn [app]; [apply sub_skip|apply sub_take]; exact S2|]. constructor; [exact LG1|exact S3].
Qed.

(** ** What the server works on *)
Definition submit_cmd (p : proto) : Z := match p with P_CMPP => 4 | P_SGIP => 3 | P_SMGP => 2 end.
Definition is_submit (j : job) (k : packet) (r : request) : Prop := j = JSubmit k r \/ j = JFlow k r.
(** A submit being worked on was received, and decoded for the version of an account logged in. *)
Definition sub_ok (pr : params) (log : list obs) (j : job) : Prop :=
  forall k r, is_submit j k r -> In (OGot k) log /\ pk_cmd k = submit_cmd (pr_p pr) /\ exists k0 a, In (OLogin k0 a) log /\ decode_submit pr (ac_Version a) k = Ok r.
Definition ver_ok (c : sconn) : Prop := se_stat (sc_sess c) = StatLogin -> exists k0 a, In (OLogin k0 a) (sc_log c) /\ se_ver (sc_sess c) = ac_Version a.
Definition work_ok (pr : params) (c : sconn) : Prop := (forall t, In t (sc_tasks c) -> sub_ok pr (sc_log c) (fst t)) /\ ver_ok c.
Lemma sub_more pr log l j : sub_ok pr log j -> sub_ok pr (log ++ l) j.
Proof. intros H k r I. destruct (H k r I) as (A & B & k0 & a & C & D). split; [apply in_or_app; auto|]. split; [exact B|]. exists k0, a. split; [apply in_or_app; auto|exact D]. Qed.
Lemma work_note pr c o : work_ok pr c -> work_ok pr (note c o).
Proof.
  intros [A B]. split; cbn [note sc_tasks sc_log].
  - intros t I. apply sub_more. auto.
  - intros S. destruct (B S) as (k0 & a & C & D). exists k0, a. split; [apply in_or_app; auto|exact D].
Qed.
Lemma work_spawn pr c j : work_ok pr c -> sub_ok pr (sc_log c) j -> work_ok pr (spawn c j).
Proof. intros [A B] J. split; [|exact B]. intros t I. cbn in I. apply in_app_or in I as [I|[<-|[]]]; auto. Qed.
Lemma not_submit pr log j : (forall k r, ~ is_submit j k r) -> sub_ok pr log j.
Proof. intros N k r I. destruct (N k r I). Qed.
Lemma work_close pr c : work_ok pr c -> work_ok pr (OnClose c).
Proof. intros H. unfold OnClose. destruct (negb (sc_open c)); [exact H|]. apply work_note. exact H. Qed.
Ltac nsub := apply not_submit; intros ? ? [X|X]; discriminate X.
Lemma work_task pr o i c : work_ok pr c -> work_ok pr (on_task pr o i c).
Proof.
  intros H. destruct (nth_error (sc_tasks c) i) as [[j q]|] eqn:N; [|unfold on_task; rewrite N; exact H].
  pose proof H as (HT & HV). assert (J : sub_ok pr (sc_log c) j) by (apply (HT (j, q)); eapply nth_error_In; eauto).
  assert (U : forall q', work_ok pr (with_tasks c (upd (sc_tasks c) i (j, q')))).
  { intros q'. split; [|exact HV]. intros t Ht. apply (in_upd _ _ _ _ _ N) in Ht as [->|Ht]; auto. }
  assert (V : work_ok pr (with_tasks c (del (sc_tasks c) i))) by (split; [intros t Ht; apply in_del in Ht; auto|exact HV]).
  assert (PU : forall s its ts w, work_ok pr (with_tasks c ts) -> (se_stat s = StatLogin -> se_stat (sc_sess c) = StatLogin /\ se_ver s = se_ver (sc_sess c)) ->
    work_ok pr (SConn (sc_buf c) (sc_open c) s (sc_chans c) ts (sc_queue c ++ its) w (sc_log c))).
  { intros s its ts w (A & _) B. split; [exact A|]. intros S. cbn in S. destruct (B S) as [S1 S2]. destruct (HV S1) as (k0 & a & X & Y). exists k0, a. split; [exact X|]. cbn. congruence. }
  destruct (on_task_step pr o i c j q N) as [W F|Ej|it W I1 C1|g W Q|W Q SS|W Q|k r it code a Ej Eq I1 C1 Ec Ek Ea|s' its w W Eq Nj SS It Wi|its a k Eq W It|g W Q|W Q];
    try (exact V); try (apply U; fail); try (apply PU; [first [exact V|apply U]|intros Sx; split; [exact Sx|reflexivity]]; fail).
  - unfold try_send. destruct (ch_closed _); [exact V|]. destruct (_ <? _); [exact (U PWork)|exact (U (PSend g))].
  - apply PU; [apply U|]. destruct SS as (S1 & S2 & _). intros Sx. split; congruence.
  - unfold try_recv. destruct (_ <? _); [exact V|]. destruct (ch_closed _); [exact V|exact (U (PRecv g))].
  - exact H.
Qed.
Lemma work_write pr o c c' : work_ok pr c -> on_write o c = Ok c' -> work_ok pr c'.
Proof.
  intros H E. unfold on_write in E. destruct (sc_open c); [|injection E as <-; exact H]. destruct (sc_queue c) as [|[[kd b] f] r] eqn:Q; [injection E as <-; exact H|].
  assert (H1 : work_ok pr (note (with_queue c r) (OOut kd b))) by (apply work_note; exact H).
  set (c1 := note _ _) in *. clearbody c1.
  assert (KEEP : forall s, (se_stat s = StatLogin -> se_stat (sc_sess c1) = StatLogin) -> se_ver s = se_ver (sc_sess c1) -> forall w, work_ok pr (SConn (sc_buf c1) (sc_open c1) s (sc_chans c1) (sc_tasks c1) (sc_queue c1) w (sc_log c1))).
  { intros s A B w. destruct H1 as [X Y]. split; [exact X|]. intros S1. destruct (Y (A S1)) as (k0 & a & U & V). exists k0, a. split; [exact U|]. cbn. congruence. }
  destruct f; cbn [callback] in E; try (injection E as <-; refine (KEEP _ _ _ _); [auto|reflexivity]; fail).
  - destruct ac as [ac|]; destruct (code =? 0); try discriminate; try (injection E as <-; refine (KEEP _ _ _ _); [cbn; discriminate|reflexivity]).
    apply bind_ok in E as (c2 & E2 & E). injection E as <-. unfold completeLogin in E2. destruct (_ <? 0); [discriminate|]. injection E2 as <-.
    split; cbn [note with_chans with_sess sc_tasks sc_log].
    + destruct H1 as [X _]. intros t I. apply sub_more. apply X. unfold closeResource in *. destruct (se_win _); exact I.
    + intros _. exists k, ac. split; [apply in_or_app; right; left; reflexivity|reflexivity].
  - destruct (code =? 0); injection E as <-; [refine (KEEP _ _ _ _); [auto|reflexivity]|exact H1].
Qed.
Lemma work_step pr c e c' : work_ok pr c -> step pr c e = Ok c' -> work_ok pr c'.
Proof.
  intros H E. destruct e as [[seg|i| | |] o]; cbn [step fst snd] in *.
  - apply on_recv_step in E. destruct E as [O1|O1 F|O1 F|k rest O1 F N|k rest h a c1 O1 F Hin Hc HA]; try exact H.
    + apply work_close. exact H.
    + assert (G : work_ok pr c1).
      { assert (SB : forall r, h = HSubmit -> se_stat (sc_sess c) = StatLogin -> decode_submit pr (se_ver (sc_sess c)) k = Ok r -> forall b j, is_submit j k r -> (forall k' r', is_submit j k' r' -> k' = k /\ r' = r) ->
          work_ok pr (spawn (note (note c (OGot k)) (OServe k b)) j)).
        { intros r -> SL D b j _ U. apply work_spawn; [apply work_note, work_note; exact H|]. intros k' r' I'. destruct (U _ _ I') as [-> ->].
          destruct H as [_ HV]. destruct (HV SL) as (k0 & a0 & X & Y). cbn [note sc_log]. split; [rewrite !in_app_iff; cbn; auto|]. split; [rewrite <- Hc; destruct (pr_p pr); reflexivity|].
          exists k0, a0. split; [rewrite !in_app_iff; auto|]. rewrite <- Y. exact D. }
        inversion HA; subst.
        - apply work_note. exact H.
        - apply work_spawn; [apply work_note; exact H|nsub].
        - apply (SB r); auto; [right; reflexivity|intros k' r' [X|X]; [discriminate X|injection X as <- <-; auto]].
        - apply work_note, work_note. exact H.
        - apply (SB r); auto; [left; reflexivity|intros k' r' [X|X]; [injection X as <- <-; auto|discriminate X]].
        - apply work_spawn; [apply work_note, work_note; exact H|]. apply not_submit. intros k' r' I'.
          match goal with D : decode_other _ _ _ = Ok j |- _ => revert D end. destruct I' as [-> | ->]; destruct (pr_p pr), h; cbn [decode_other]; intros D; try discriminate D; apply bind_ok in D as (x & _ & D); discriminate D. }
      destruct a; [exact G|apply work_close; exact G].
  - injection E as <-. apply work_task; auto.
  - eapply work_write; eauto.
  - injection E as <-. unfold on_tick. destruct (negb _); [exact H|]. destruct (_ || _); [destruct (o_acc o); [apply work_spawn; [exact H|nsub]|exact H]|].
    destruct (se_stat (sc_sess c)); try exact H. assert (H1 : work_ok pr (if o_acc o then spawn c JHeart else c)) by (destruct (o_acc o); [apply work_spawn; [exact H|nsub]|exact H]).
    destruct (o_dly o) as [b|] eqn:EB; [|exact H1]. destruct (o_acc2 o); [|exact H1]. apply work_spawn; [exact H1|nsub].
  - injection E as <-. apply work_close. exact H.
Qed.
Lemma work_run pr es : forall c c', work_ok pr c -> run pr c es = Ok c' -> work_ok pr c'.
Proof. induction es as [|e es IH]; intros c c' H E; cbn [run] in E; [congruence|]. apply bind_ok in E as (c1 & E1 & E2). apply (IH c1 c'); [|exact E2]. apply (work_step pr c e c1); auto. Qed.
Lemma work_opened pr now : work_ok pr (opened now).
Proof. split; [intros t []|]. intros X. discriminate X. Qed.

(** ** What a session of the client writes *)
Lemma chead_shape h f : head_Encode h = Ok f -> zlen f = head_len h /\ firstn 4 f = be 4 (head_len h) /\ says f (h_cmd h).
Proof.
  unfold head_Encode. cbv zeta. intros H. apply bind_ok in H as (f1 & E1 & H). apply bind_ok in H as (f2 & E2 & H).
  pose proof (put_here _ _ _ _ _ _ E1 eq_refl) as A. pose proof (put_here _ _ _ _ _ _ E2 eq_refl) as B.
  change (Z.to_nat 0) with 0%nat in A. change (Z.to_nat 4) with 4%nat in B. cbn [skipn] in A.
  destruct (put_keep 8 _ _ _ _ _ _ H) as [K3 L3]; [lia|lia|]. destruct (put_keep 4 _ _ _ _ _ _ E2) as [K2 L2]; [lia|lia|]. destruct (put_keep 0 _ _ _ _ _ _ E1) as [_ L1]; [lia|lia|].
  assert (Z0 : zlen (zeros (head_len h)) = head_len h).
  { unfold zeros, zlen, head_len in *. rewrite repeat_length in *. destruct (h_len h <? 12) eqn:C; lia. }
  split; [lia|]. split.
  - transitivity (firstn 4 (firstn 8 f)); [rewrite firstn_firstn; reflexivity|]. rewrite K3, firstn_firstn. cbn [Nat.min]. congruence.
  - unfold says. rewrite window_firstn in B |- *. cbn [Nat.add] in *. rewrite K3. exact B.
Qed.
Definition is_reply (b : bytes) : Prop := sized b /\ exists cmd, says b cmd /\ 2147483648 <= cmd < 2 ^ 32.
(** A header of fixed length, followed by writes behind it. *)
Lemma reply_shape h f b : head_Encode h = Ok f -> firstn 8 b = firstn 8 f -> zlen b = zlen f -> 12 <= h_len h < 2 ^ 32 -> 2147483648 <= h_cmd h < 2 ^ 32 -> is_reply b.
Proof.
  intros H F L R C. apply chead_shape in H as (A & B & S). assert (HL : head_len h = h_len h) by (unfold head_len; destruct (_ <? 12) eqn:X; lia). rewrite HL in *.
  split; [split; [lia|]|exists (h_cmd h); split; [|exact C]].
  - rewrite L, A, <- B. transitivity (firstn 4 (firstn 8 b)); [rewrite firstn_firstn; reflexivity|]. rewrite F, firstn_firstn. reflexivity.
  - apply (keep_says 8 f b); [symmetry; exact F|lia|exact S].
Qed.
Lemma cmpp_out s ca cmd seq f o s1 ca1 out : onTrafficCmpp s ca cmd seq f o = Ok (s1, ca1, out) -> forall b, In b out -> is_reply b.
Proof.
  unfold onTrafficCmpp. cbv zeta. intros H b I. destruct (cmd =? RESP + CONNECT).
  { apply bind_ok in H as (v & _ & H). apply bind_ok in H as (r & _ & H). destruct (cr_status r =? 0); [|discriminate H]. unfold nothing in H. injection H as _ _ <-. destruct I. }
  destruct (cmd =? ACTIVE_TEST).
  { apply bind_ok in H as (h & D & H). unfold answer_or_close in H. apply bind_ok in H as (b0 & RB & H). apply reply_ok in RB as [RB _].
    destruct (g_err o); [unfold ClientModel.closing in H; apply bind_ok in H as (s2 & _ & H)|]; injection H as _ _ <-; [destruct I|]. destruct I as [<-|[]].
    unfold ActiveTestRsp_Encode in RB. apply bind_ok in RB as (f0 & F0 & RB). apply (set_keep 8) in RB; [|lia]. destruct RB as [K L].
    apply (reply_shape _ f0 _ F0 K L); cbn [ActiveTest_ToResponse h_len h_cmd]; unfold RESP, ACTIVE_TEST; lia. }
  destruct (cmd =? RESP + ACTIVE_TEST); [unfold nothing in H; injection H as _ _ <-; destruct I|].
  destruct (cmd =? TERMINATE).
  { apply bind_ok in H as (h & D & H). apply bind_ok in H as (b0 & RB & H). apply reply_ok in RB as [RB _]. unfold ClientModel.closing in H. apply bind_ok in H as (s2 & _ & H). injection H as _ _ <-.
    destruct (g_err o); [destruct I|]. destruct I as [<-|[]]. apply (reply_shape _ b0 _ RB eq_refl eq_refl); cbn [Terminate_ToResponse h_len h_cmd]; unfold RESP, TERMINATE; lia. }
  destruct (cmd =? RESP + TERMINATE); [unfold ClientModel.closing in H; apply bind_ok in H as (s2 & _ & H); injection H as _ _ <-; destruct I|].
  destruct (cmd =? RESP + SUBMIT); [apply bind_ok in H as (v & _ & H); apply bind_ok in H as (r & _ & H); unfold nothing in H; injection H as _ _ <-; destruct I|].
  destruct (cmd =? DELIVER); [|unfold nothing in H; injection H as _ _ <-; destruct I].
  apply bind_ok in H as (v & _ & H). apply bind_ok in H as (d & _ & H). apply bind_ok in H as (b0 & RB & H). apply bind_ok in H as (s2 & _ & H). apply reply_ok in RB as [RB _]. injection H as _ _ <-.
  destruct (g_err o); [destruct I|]. destruct I as [<-|[]]. unfold cresp_Encode in RB. cbn [Delivery_ToResponse rs_h rs_msgId rs_result rs_version] in RB.
  apply bind_ok in RB as (f0 & F0 & RB). apply bind_ok in RB as (f1 & F1 & RB). apply (put_keep 8) in F1; [|lia|lia]. destruct F1 as [K1 L1].
  assert (K : firstn 8 b0 = firstn 8 f1 /\ zlen b0 = zlen f1) by (destruct (is_v3 (dl_version d)); [apply (put_keep 8) in RB; [exact RB|lia|lia]|apply (set_keep 8) in RB; [exact RB|lia]]).
  destruct K as [K L]. apply (reply_shape _ f0 _ F0); try congruence; cbn [h_len h_cmd]; destruct (is_v3 _); unfold RESP, DELIVER; lia.
Qed.
Lemma smhead_same h : smhead_Encode h = head_Encode h.
Proof. reflexivity. Qed.
Lemma smgp_out gbd s ca cmd seq f o s1 ca1 out : onTrafficSmgp gbd s ca cmd seq f o = Ok (s1, ca1, out) -> forall b, In b out -> is_reply b.
Proof.
  unfold onTrafficSmgp. cbv zeta. intros H b I. destruct (cmd =? RESP + SM_LOGIN).
  { apply bind_ok in H as (v & _ & H). apply bind_ok in H as (r & _ & H). destruct (lr_status r =? 0); [|discriminate H]. unfold nothing in H. injection H as _ _ <-. destruct I. }
  destruct (cmd =? SM_ACTIVE_TEST).
  { apply bind_ok in H as (h & D & H). unfold answer_or_close in H. apply bind_ok in H as (b0 & RB & H). apply reply_ok in RB as [RB _]. unfold sm_bare_Decode in D. injection D as <-.
    destruct (g_err o); [unfold ClientModel.closing in H; apply bind_ok in H as (s2 & _ & H)|]; injection H as _ _ <-; [destruct I|]. destruct I as [<-|[]].
    rewrite smhead_same in RB. apply (reply_shape _ b0 _ RB eq_refl eq_refl); cbn [sm_bare_ToResponse h_len h_cmd]; unfold RESP, SM_ACTIVE_TEST; lia. }
  destruct (cmd =? RESP + SM_ACTIVE_TEST); [unfold nothing in H; injection H as _ _ <-; destruct I|].
  destruct (cmd =? SM_EXIT).
  { apply bind_ok in H as (h & D & H). unfold sm_bare_Decode in D. injection D as <-. apply bind_ok in H as (b0 & RB & H). apply reply_ok in RB as [RB _]. unfold ClientModel.closing in H. apply bind_ok in H as (s2 & _ & H). injection H as _ _ <-.
    destruct (g_err o); [destruct I|]. destruct I as [<-|[]]. rewrite smhead_same in RB. apply (reply_shape _ b0 _ RB eq_refl eq_refl); cbn [sm_bare_ToResponse h_len h_cmd]; unfold RESP, SM_EXIT; lia. }
  destruct (cmd =? RESP + SM_EXIT); [unfold ClientModel.closing in H; apply bind_ok in H as (s2 & _ & H); injection H as _ _ <-; destruct I|].
  destruct (cmd =? RESP + SM_SUBMIT); [apply bind_ok in H as (v & _ & H); apply bind_ok in H as (r & _ & H); unfold nothing in H; injection H as _ _ <-; destruct I|].
  destruct (cmd =? SM_DELIVER); [|unfold nothing in H; injection H as _ _ <-; destruct I].
  apply bind_ok in H as (v & _ & H). destruct (MDeliver_Decode gbd v seq f) as [d|e|]; [|unfold ClientModel.closing in H; apply bind_ok in H as (s2 & _ & H); injection H as _ _ <-; destruct I|discriminate H].
  apply bind_ok in H as (b0 & RB & H). apply bind_ok in H as (s2 & _ & H). apply reply_ok in RB as [RB _]. injection H as _ _ <-.
  destruct (g_err o); [destruct I|]. destruct I as [<-|[]]. unfold mresp_Encode in RB. cbn [MDeliver_ToResponse mr_h mr_msgId mr_status] in RB.
  apply bind_ok in RB as (f0 & F0 & RB). apply bind_ok in RB as (f1 & F1 & RB). apply (copy_keep 8) in F1; [|lia]. destruct F1 as [K1 L1]. apply (put_keep 8) in RB; [|lia|lia].
  destruct RB as [K L]. rewrite smhead_same in F0. apply (reply_shape _ f0 _ F0); try congruence; cbn [h_len h_cmd]; unfold RESP, SM_DELIVER; lia.
Qed.
Lemma handler_out gbd s ca cmd seq f o s1 ca1 out : c_onTraffic gbd s ca cmd seq f o = Ok (s1, ca1, out) -> forall b, In b out -> is_reply b.
Proof.
  unfold c_onTraffic. destruct (cs_p s) eqn:P; intros H b I.
  - exact (cmpp_out _ _ _ _ _ _ _ _ _ H b I).
  - destruct (sgip_out _ _ _ _ _ _ _ _ _ P H b I) as [A B]. split; [apply framed_sized; exact A|]. exists 2147483650. split; [exact B|lia].
  - exact (smgp_out _ _ _ _ _ _ _ _ _ _ H b I).
Qed.
(** The account of a session is the one it started with, until it is closed. *)
Definition ac_kept (s s1 : csess) : Prop := cs_ac s1 = None \/ cs_ac s1 = cs_ac s.
Lemma Close_ac s s1 : Close s = Ok s1 -> ac_kept s s1.
Proof. unfold Close, ac_kept. destruct (cs_stat s); try destruct (cs_con s); intros H; try discriminate H; injection H as <-; auto. Qed.
Lemma handler_ac gbd s ca cmd seq f o s1 ca1 out : c_onTraffic gbd s ca cmd seq f o = Ok (s1, ca1, out) -> ac_kept s s1.
Proof.
  assert (K : forall now, ac_kept s (touch s now)) by (right; reflexivity).
  assert (CL : forall now s2, Close (touch s now) = Ok s2 -> ac_kept s s2) by (intros now s2 E; apply Close_ac in E; exact E).
  unfold c_onTraffic, onTrafficCmpp, onTrafficSgip, onTrafficSmgp, answer_or_close, nothing, ClientModel.closing. cbv zeta. intros H.
  destruct (cs_p s);
  repeat match type of H with
    | bind (if _ then _ else _) _ = _ => let x := fresh "x" in let E := fresh "E" in apply bind_ok in H as (x & E & H)
    | bind _ _ = _ => let x := fresh "x" in let E := fresh "E" in apply bind_ok in H as (x & E & H)
    | (if ?c then _ else _) = _ => destruct c
    | match ?c with Ok _ => _ | Err _ => _ | Panic => _ end = _ => destruct c
    end; try discriminate H; assert (Y : forall (a b : csess) (c d : caches) (u v : list bytes), Ok (a, c, u) = Ok (b, d, v) -> b = a) by congruence; apply Y in H; subst s1; auto;
    try (match goal with E : Close _ = Ok _ |- _ => exact (CL _ _ E) end);
    match goal with E : Ok _ = Ok _ |- ac_kept _ _ => idtac | _ => idtac end.
  all: match goal with E : Ok (touch _ _) = Ok ?x |- ac_kept _ ?x => injection E as <-; apply K | E : (if _ then _ else _) = Ok ?x |- ac_kept _ ?x => destruct (g_err o); [exact (CL _ _ E)|injection E as <-; apply K] end.
Qed.

(** ** One packet through the wire *)
Lemma fits_mono w v s : fits w s -> (w <= v)%nat -> fits v s.
Proof. intros [A B] L. split; [exact A|lia]. Qed.
Lemma fits_nil w : fits w [].
Proof. split; [intros []|cbn; lia]. Qed.
Lemma fits_app a b v w : fits v a -> fits w b -> fits (v + w) (a ++ b).
Proof. intros [A L] [B M]. split; [rewrite in_app_iff; tauto|rewrite app_length; lia]. Qed.
Lemma opts_wf_of display ops : Forall (opt_fits display) ops -> ops_wf ops.
Proof. intros H. unfold ops_wf. revert H. apply Forall_impl. intros o. destruct o; cbn; auto. Qed.
Lemma options_fit display ops : fits 21 display -> Forall (opt_fits display) ops -> let o := LoadMtOptions ops in
  fits 20 (o_LinkID o) /\ fits 21 (display ++ o_SpSubNo o) /\ fits 16 (o_AtTime o) /\ fits 16 (o_ValidTime o) /\ fits 6 (o_FeeCode o) /\
  fits 2 (o_FeeType o) /\ fits 21 (o_FeeTerminalId o) /\ fits 10 (o_ServiceId o).
Proof.
  intros FD. unfold LoadMtOptions. induction ops as [|x ops IH] using rev_ind; intros H.
  - cbn. rewrite app_nil_r. repeat split; try (exact (proj1 FD)); try (exact (proj2 FD)); try (intros []; fail); cbn; lia.
  - apply Forall_app in H as [H1 H2]. specialize (IH H1). apply Forall_inv in H2. rewrite fold_left_app. cbn [fold_left].
    destruct (fold_left apply_opt ops mt_default) as [nr ml fu ft si fi fty fc vt atm sp li]. cbn [o_LinkID o_SpSubNo o_AtTime o_ValidTime o_FeeCode o_FeeType o_FeeTerminalId o_ServiceId] in IH.
    destruct IH as (I1 & I2 & I3 & I4 & I5 & I6 & I7 & I8).
    assert (SF : fits 4 sfx_032) by (split; [intros [X|[X|[X|[X|[]]]]]; discriminate X|cbn; lia]).
    destruct x; cbn [apply_opt o_LinkID o_SpSubNo o_AtTime o_ValidTime o_FeeCode o_FeeType o_FeeTerminalId o_ServiceId opt_fits] in *;
      repeat match goal with |- _ /\ _ => split end; auto.
    + exact (fits_app _ _ 12 4 H2 SF).
    + apply (fits_app _ _ 12 4); [|exact SF]. destruct (12 <? zlen s) eqn:C; [|split; [exact H2|unfold zlen in C; lia]]. split; [|rewrite firstn_length; lia].
      intros I. apply H2. rewrite <- (firstn_skipn 12 s). apply in_or_app. auto.
    + destruct (negb (beqb s [48;49]) && _ && _ && _ && _) eqn:C; [apply fits_nil|].
      assert (Y : forall a b, beqb a b = true -> a = b) by (intros a b; unfold beqb; destruct (list_eq_dec Z.eq_dec a b); [auto|discriminate]).
      rewrite !andb_false_iff, !negb_false_iff in C. destruct C as [[[[C|C]|C]|C]|C]; apply Y in C; subst s; (split; [cbn; intuition discriminate|cbn; lia]).
Qed.
Lemma opt_txt_fits w a b : fits w a -> fits w b -> fits w (opt_txt a b).
Proof. destruct a; auto. Qed.
Lemma ac_wf_of p ac : account_fits p ac -> ac_wf ac.
Proof. unfold account_fits, ac_wf. tauto. Qed.
(** the bytes behind the head *)
Lemma wire_body k len cmd seq body : PropFrame.wire k = render (head len cmd seq ++ body) -> pk_body k = render body.
Proof.
  intros E. apply (f_equal (skipn 12)) in E. rewrite wire_head, render_app in E.
  assert (L : forall a b c, length (render (head a b c)) = 12%nat) by (intros a b c; pose proof (zlen_head12 a b c) as X; unfold zlen in X; lia).
  rewrite !skipn_app, !L in E. rewrite !skipn_all2 in E by (rewrite L; lia). exact E.
Qed.
(** decoding for another version of the same layout *)
Definition with_ver (v : Z) (s : submit) : submit :=
  Submit (sb_h s) (sb_msgId s) (sb_pkTotal s) (sb_pkNumber s) (sb_registeredDel s) (sb_msgLevel s) (sb_serviceId s) (sb_feeUsertype s)
    (sb_feeTerminalId s) (sb_feeTerminalType s) (sb_tpPid s) (sb_tpUdhi s) (sb_msgFmt s) (sb_msgSrc s) (sb_feeType s) (sb_feeCode s)
    (sb_validTime s) (sb_atTime s) (sb_srcId s) (sb_destUsrTl s) (sb_destTerminalId s) (sb_termIds s) (sb_destTerminalType s) (sb_msgLength s)
    (sb_msgContent s) (sb_linkID s) v.
Lemma bind_assoc {A B C} (x : res A) (f : A -> res B) (g : B -> res C) : bind (bind x f) g = bind x (fun a => bind (f a) g).
Proof. destruct x; reflexivity. Qed.
Lemma bind_ext {A B} (x : res A) (f g : A -> res B) : (forall a, f a = g a) -> bind x f = bind x g.
Proof. intros H. destruct x; cbn; auto. Qed.
Lemma decode_ver v v' seq f : is_v3 v' = is_v3 v -> Submit_Decode v' seq f = (d <- Submit_Decode v seq f ;; Ok (with_ver v' d)).
Proof.
  intros E. unfold Submit_Decode. cbv zeta. rewrite E. destruct (is_v3 v).
  - repeat (rewrite ?bind_assoc; apply bind_ext; intros; repeat match goal with x : (_ * _)%type |- _ => destruct x end). reflexivity.
  - repeat (rewrite ?bind_assoc; apply bind_ext; intros; repeat match goal with x : (_ * _)%type |- _ => destruct x end). reflexivity.
Qed.
Lemma render_framed len cmd seq body : len = 12 + zlen (render body) -> 13 <= len < 2 ^ 32 -> framed (render (head len cmd seq ++ body)) /\ says (render (head len cmd seq ++ body)) cmd.
Proof.
  intros L R. rewrite render_app. assert (Z : zlen (render (head len cmd seq) ++ render body) = len) by (rewrite zlen_app, zlen_head12; lia).
  split; [split; [lia|rewrite Z]|]; unfold says, render, head; cbn [map concat render1]; rewrite <- !app_assoc.
  - rewrite firstn_app, length_be, firstn_all2 by (rewrite length_be; lia). cbn [Nat.sub]. rewrite firstn_O. apply app_nil_r.
  - rewrite skipn_app, length_be, skipn_all2 by (rewrite length_be; lia). cbn [Nat.sub skipn app]. rewrite firstn_app, length_be, firstn_all2 by (rewrite length_be; lia). cbn [Nat.sub]. rewrite firstn_O. apply app_nil_r.
Qed.
Lemma headless_plain c : headless c -> plain c.
Proof. exact (fun H => H). Qed.
(** a short text goes into one part, which carries it *)
Lemma short_part gbe gbd p g msg parts b : p <> P_SMGP -> short p gbe gbd msg -> MsgSlices g (MsgFmt msg) msg = Ok parts -> In b parts -> plain b /\ carries (MsgFmt msg) b msg.
Proof.
  intros NP SH E I. assert (SH' : exists cs, utf8_text cs msg /\ ((forall c, In c cs -> c < 128) /\ zlen msg < 160 /\ headless msg \/ (exists c, In c cs /\ 128 <= c) /\ forall u, utf16be_text cs u -> zlen u < 140 /\ headless u)) by (destruct p; [exact SH|exact SH|congruence]).
  destruct SH' as (cs & U & C). destruct (MsgFmt_text cs msg U) as [F8 F08]. unfold MsgSlices in E. destruct C as [(A & L & H)|(A & H)].
  - assert (F : MsgFmt msg = 0) by (destruct F08 as [F|F]; [exact F|]; apply F8 in F as (c & I1 & I2); specialize (A c I1); lia).
    rewrite F in *. cbn [Z.eqb] in E. rewrite split_short in E by auto. injection E as <-. destruct I as [<-|[]]. split; [exact H|]. left. auto.
  - apply F8 in A. destruct (Utf8ToUcs2_text cs msg U) as (U1 & U2 & U3). rewrite A, U1 in E. cbn [Z.eqb Pos.eqb] in E. destruct (H _ U2) as [L1 L2].
    assert (E2 : ToTPUDHISlices g (flat_map utf16_emit cs) 140 = Ok parts) by exact E. rewrite split_short in E2 by auto. injection E2 as <-. destruct I as [<-|[]].
    split; [exact L2|]. right. split; [exact A|]. exists cs. auto.
Qed.
Definition good_packet (p : proto) (gbe gbd : bytes -> option bytes) (ac : authconf) (phone msg b : bytes) : Prop :=
  framed b /\ says b (submit_cmd p) /\
  forall pr k v r, pr_p pr = p -> pr_gbd pr = gbd -> PropFrame.wire k = b -> (p = P_CMPP -> is_v3 v = is_v3 (ac_Version ac)) -> decode_submit pr v k = Ok r ->
    addressed r phone /\ (short p gbe gbd msg -> reads r msg).
Lemma cmpp_packet gbe gbd ac phone msg ops d parts b key : account_fits P_CMPP ac -> Forall (opt_fits (ac_SmsDisplayNo ac)) ops -> fits 21 phone -> fits 16 (d_valid d) ->
  segments P_CMPP gbe ac phone msg ops d = Ok parts -> In (Ok b, key) parts -> good_packet P_CMPP gbe gbd ac phone msg b.
Proof.
  intros AF OF PF VF E I. cbn [segments] in E. apply bind_ok in E as (l & EL & E). assert (parts = map (fun s => (Submit_Encode s, h_seq (sb_h s))) l) as -> by congruence. clear E.
  apply in_map_iff in I as (s & ES & IS). assert (EB : Submit_Encode s = Ok b) by congruence. clear ES. apply In_nth_error in IS as [n NS].
  assert (AW := ac_wf_of _ _ AF). assert (OW := opts_wf_of _ _ OF).
  assert (SEQ : 0 <= u32 (d_seq d) < 2 ^ 32) by (unfold u32; apply Z.mod_pos_bound; lia).
  assert (NXT : forall i, 0 <= u32 (d_nxt d i) < 2 ^ 32) by (intros i; unfold u32; apply Z.mod_pos_bound; lia).
  destruct (built_part_all ac [phone] msg (u32 (d_seq d)) ops (d_valid d) (d_g d) (fun i => u32 (d_nxt d i)) AW OW ltac:(cbn; lia) SEQ NXT) as (msgs & EM & _ & BP).
  assert (msgs = l) as -> by congruence. destruct (BP n s NS) as [c BPn]. destruct (built_part_inv _ _ _ _ _ _ _ _ _ _ _ _ BPn) as (W & B & P).
  destruct AF as (A1 & A2 & A3 & A4 & A5 & A6 & A7 & A8 & _). pose proof (options_fit (ac_SmsDisplayNo ac) ops (fits_mono 6 21 _ A1 ltac:(lia)) OF) as OPT. cbv zeta in OPT.
  destruct OPT as (O1 & O2 & O3 & O4 & O5 & O6 & O7 & O8).
  unfold built_from in B. cbv zeta in B. destruct B as (B1 & B2 & B3 & B4 & B5 & B6 & B7 & B8 & B9 & B10 & B11 & B12 & B13 & B14 & B15 & B16 & B17 & B18 & B19).
  assert (SF : submit_fits s).
  { unfold submit_fits. rewrite B1, B12, B13, B6, B14, B15, B16, B17, B18, B19.
    split; [apply opt_txt_fits; auto|]. split; [apply (fits_mono 21); [apply opt_txt_fits; auto|destruct (is_v3 _); lia]|]. split; [exact A1|]. split; [apply opt_txt_fits; auto|]. split; [apply opt_txt_fits; auto|].
    split; [apply (fits_mono 16); [apply opt_txt_fits; auto|lia]|]. split; [apply (fits_mono 16); [auto|lia]|]. split; [exact O2|]. apply opt_txt_fits; auto. }
  pose proof (Submit_Encode_ok s W) as SE. rewrite EB in SE. assert (BR : b = render (head (h_len (sb_h s)) 4 (h_seq (sb_h s)) ++ submit_body (is_v3 (sb_version s)) s)) by congruence.
  assert (LB : h_len (sb_h s) = 12 + zlen (render (submit_body (is_v3 (sb_version s)) s)) /\ 13 <= h_len (sb_h s) < 2 ^ 32).
  { destruct W as (_ & _ & HL & W). destruct P as (P1 & P2 & _). assert (is_byte (sb_msgLength s)) by tauto. pose proof (zlen_nonneg (sb_msgContent s)). pose proof (zlen_nonneg (sb_termIds s)).
    assert (LT : zlen (sb_termIds s) <= 32) by (rewrite B5, zlen_ids; change (@zlen bytes [phone]) with 1; destruct (is_v3 (ac_Version ac)); lia).
    rewrite zlen_render, HL. unfold submit_base, submit_body, is_byte in *. rewrite P1 in *. destruct (is_v3 (sb_version s)); cbn [app widths width]; lia. }
  destruct (render_framed (h_len (sb_h s)) 4 (h_seq (sb_h s)) (submit_body (is_v3 (sb_version s)) s) (proj1 LB) (proj2 LB)) as [FR SY]. rewrite <- BR in FR, SY.
  split; [exact FR|]. split; [exact SY|]. intros pr k v r PP _ WK VV D.
  unfold decode_submit in D. rewrite PP in D. apply bind_ok in D as (d' & D & DR). assert (r = QCmpp d') as -> by congruence. clear DR.
  rewrite (decode_ver (sb_version s) v) in D by (rewrite B1; apply VV; reflexivity). rewrite BR in WK. apply wire_body in WK. rewrite WK in D. apply bind_ok in D as (d0 & D & DV).
  assert (d' = with_ver v d0) as -> by congruence. clear DV.
  destruct (SF) as (F1 & F2 & F3 & F4 & F5 & F6 & F7 & F8 & F9). destruct P as (P1 & P2 & P3 & P4 & P5 & P6 & P7).
  rewrite (Submit_Decode_ok s (pk_seq k)) in D; auto.
  2:{ rewrite B5, zlen_ids, B4, B1. change (zlen [phone]) with 1. destruct (is_v3 _); reflexivity. }
  2:{ rewrite P1, P2. reflexivity. }
  apply bind_ok in D as (ct & SU & D). assert (Y : forall a b : submit, Ok a = Ok b -> b = a) by congruence. apply Y in D. rewrite D. cbn [with_ver addressed reads sb_destUsrTl sb_destTerminalId sb_msgFmt sb_msgContent].
  split; [split; [rewrite B4; reflexivity|]|].
  - rewrite B5. cbn [map]. unfold render. cbn [map concat render1]. rewrite app_nil_r. destruct PF as [PF1 PF2]. apply TrimStr_fit; [exact PF1|]. destruct (is_v3 _); lia.
  - intros SH. destruct BPn as (msgs & ps & _ & E2 & _ & _ & NB & _). apply nth_error_In in NB. destruct (short_part gbe gbd P_CMPP (d_g d) msg ps c ltac:(discriminate) SH E2 NB) as [PL CA].
    rewrite P1, (strip_plain c PL) in SU. assert (ct = c) as -> by congruence. rewrite B2. exact CA.
Qed.
Lemma sgip_fields ac phone msg ops vd g q l : account_fits P_SGIP ac -> Forall (opt_fits (ac_SmsDisplayNo ac)) ops -> fits 21 phone -> fits 16 vd ->
  sgip_NewSubmit ac [phone] msg ops vd g q = Ok l -> Forall ssubmit_fits l.
Proof.
  intros AF OF PF VF E. destruct AF as (A1 & A2 & A3 & A4 & A5 & A6 & A7 & A8 & _). destruct (options_fit (ac_SmsDisplayNo ac) ops A1 OF) as (O1 & O2 & O3 & O4 & O5 & O6 & O7 & O8).
  assert (ONE : forall c u qq b, ssubmit_fits (sgip_part ac (LoadMtOptions ops) [phone] vd c u qq b)).
  { intros c u qq b. unfold ssubmit_fits, sgip_part. cbn [ss_SPNumber ss_ChargeNumber ss_UserNumber ss_CorpId ss_ServiceType ss_FeeValue ss_GivenValue ss_ExpireTime ss_ScheduleTime ss_Reserve].
    split; [destruct (o_SpSubNo (LoadMtOptions ops)) eqn:SP; [exact A1|exact O2]|]. split; [apply fits_nil|]. split; [constructor; [exact PF|constructor]|].
    split; [|split; [apply opt_txt_fits; auto|]; split; [apply fits_nil|]; split; [apply fits_nil|]; split; [apply opt_txt_fits; auto|]; split; [exact O3|apply fits_nil]].
    unfold corp_of. destruct A8 as [N L]. destruct (5 <? zlen (ac_ClientId ac)) eqn:C; [|split; [exact N|unfold zlen in C; lia]].
    split; [|rewrite skipn_length; lia]. intros I. apply N. rewrite <- (firstn_skipn 5 (ac_ClientId ac)). apply in_or_app. auto. }
  unfold sgip_NewSubmit in E. cbv zeta in E. apply bind_ok in E as (ps & _ & E). destruct ps as [|x [|y ps]].
  - injection E as <-. constructor.
  - injection E as <-. constructor; [apply ONE|constructor].
  - assert (J : forall a b : list ssubmit, Ok a = Ok b -> b = a) by congruence. apply J in E. rewrite E. apply (sgip_parts_with _ (fun _ => True)); [intros i b _; apply ONE|]. rewrite Forall_forall. auto.
Qed.
Lemma sgip_packet gbe gbd ac phone msg ops d parts b key : account_fits P_SGIP ac -> Forall (opt_fits (ac_SmsDisplayNo ac)) ops -> fits 21 phone -> fits 16 (d_valid d) ->
  segments P_SGIP gbe ac phone msg ops d = Ok parts -> In (Ok b, key) parts -> good_packet P_SGIP gbe gbd ac phone msg b.
Proof.
  intros AF OF PF VF E I. pose proof (segments_shape _ _ _ _ _ _ _ E) as SS. rewrite Forall_forall in SS. destruct (SS _ I b eq_refl) as [FR SY].
  split; [exact FR|]. split; [exact SY|]. intros pr k v r PP _ WK _ D. cbn [segments] in E. apply bind_ok in E as (l & EL & E).
  assert (parts = map (fun s => (SSubmit_Encode s, Sequence2Uint64 (sh_seq (ss_h s)))) l) as -> by congruence. clear E.
  apply in_map_iff in I as (s & ES & IS). assert (EB : SSubmit_Encode s = Ok b) by congruence. clear ES.
  pose proof (sgip_fields _ _ _ _ _ _ _ _ AF OF PF VF EL) as SF. rewrite Forall_forall in SF. specialize (SF s IS). apply In_nth_error in IS as [n NS].
  assert (SQ : forall i, seq_wf (let '(a, b, c) := d_q d i in (u32 a, u32 b, u32 c))).
  { intros i. destruct (d_q d i) as [[x y] z]. unfold seq_wf, u32. repeat split; apply Z.mod_pos_bound; lia. }
  destruct (C39_built ac [phone] msg ops (d_valid d) (d_g d) _ (ac_wf_of _ _ AF) (opts_wf_of _ _ OF) ltac:(cbn; lia) SQ) as (msgs & ps & EM & EP & LN & _ & BP).
  assert (msgs = l) as -> by congruence. assert (LT : (n < length ps)%nat) by (unfold bytes in *; rewrite <- LN; apply nth_error_Some; congruence).
  destruct (nth_error ps n) as [c|] eqn:NC; [|apply nth_error_None in NC; lia]. destruct (BP n s c NS NC) as (W & UC & UN & ML & CT & _ & _ & CD & _).
  pose proof (SSubmit_Encode_ok s W SF) as SE. rewrite EB in SE. assert (BR : b = render (head20 (sh_len (ss_h s)) 3 (sh_seq (ss_h s)) ++ ssubmit_body s)) by congruence.
  unfold decode_submit in D. rewrite PP in D. apply bind_ok in D as (d' & D & DR). assert (r = QSgip d') as -> by congruence. clear DR.
  destruct (W) as (_ & SW & _). destruct (sh_seq (ss_h s)) as [[x y] z] eqn:SQE. destruct SW as (_ & R1 & R2). rewrite BR, head20_split in WK. apply wire_body in WK. rewrite WK in D.
  rewrite (SSubmit_Decode_ok s (pk_seq k) y z W SF R1 R2 UC) in D by congruence. apply bind_ok in D as (ct & SU & D).
  assert (Y : forall a b : ssubmit, Ok a = Ok b -> b = a) by congruence. apply Y in D. rewrite D. cbn [addressed reads ss_UserNumber ss_Coding ss_Content]. split; [exact UN|].
  intros SH. apply nth_error_In in NC. destruct (short_part gbe gbd P_SGIP (d_g d) msg ps c ltac:(discriminate) SH EP NC) as [PL CA].
  rewrite CT, (strip_plain c PL) in SU. assert (ct = c) as -> by congruence. rewrite CD. exact CA.
Qed.
Lemma smgp_fields gbe ac phone msg seq ops now g nxt l : account_fits P_SMGP ac -> Forall (opt_fits (ac_SmsDisplayNo ac)) ops -> fits 21 phone -> fits 16 now ->
  smgp_NewSubmit gbe ac [phone] msg seq ops now g nxt = Ok l -> Forall msubmit_fits l.
Proof.
  intros AF OF PF VF E. destruct AF as (A1 & A2 & A3 & A4 & A5 & A6 & A7 & A8 & _). destruct (options_fit (ac_SmsDisplayNo ac) ops A1 OF) as (O1 & O2 & O3 & O4 & O5 & O6 & O7 & O8).
  assert (ONE : forall q len ml b tl, msubmit_fits (sm_base ac [phone] q (LoadMtOptions ops) now len ml b tl)).
  { intros q len ml b tl. unfold msubmit_fits, sm_base. cbn [ms_serviceID ms_feeType ms_feeCode ms_fixedFee ms_validTime ms_atTime ms_srcTermID ms_chargeTermID ms_destTermID ms_reserve].
    split; [apply opt_txt_fits; auto|]. split; [exact A4|]. split; [exact A5|]. split; [exact A6|]. split; [apply (fits_mono 16); [exact VF|lia]|]. split; [apply (fits_mono 16); [exact O3|lia]|].
    split; [destruct (o_SpSubNo (LoadMtOptions ops)) eqn:SP; [exact A1|exact O2]|]. split; [exact A3|]. split; [constructor; [exact PF|constructor]|apply fits_nil]. }
  unfold smgp_NewSubmit in E. cbv zeta in E. destruct (gbe msg); [|injection E as <-; constructor]. apply bind_ok in E as (ps & _ & E).
  assert (ALL : forall total i xs, Forall msubmit_fits (sm_parts (fun q len ml b tl => sm_base ac [phone] q (LoadMtOptions ops) now len ml b tl) (zlen [phone]) total seq nxt i xs)).
  { intros total i xs. revert i. induction xs as [|x xs IH]; intros i; cbn [sm_parts]; constructor; [apply ONE|apply IH]. }
  assert (J : forall a b : list msubmit, Ok a = Ok b -> b = a) by congruence.
  destruct ps as [|x [|y ps]]; apply J in E; rewrite E; [apply ALL|constructor; [apply ONE|constructor]|apply ALL].
Qed.
Lemma smgp_packet gbe gbd ac phone msg ops d parts b key : account_fits P_SMGP ac -> Forall (opt_fits (ac_SmsDisplayNo ac)) ops -> fits 21 phone -> fits 16 (d_now d) ->
  segments P_SMGP gbe ac phone msg ops d = Ok parts -> In (Ok b, key) parts -> good_packet P_SMGP gbe gbd ac phone msg b.
Proof.
  intros AF OF PF VF E I. cbn [segments] in E. apply bind_ok in E as (l & EL & E). assert (parts = map (fun s => (MSubmit_Encode s, h_seq (ms_h s))) l) as -> by congruence. clear E.
  apply in_map_iff in I as (s & ES & IS). assert (EB : MSubmit_Encode s = Ok b) by congruence. clear ES.
  pose proof (smgp_fields _ _ _ _ _ _ _ _ _ _ AF OF PF VF EL) as SF. rewrite Forall_forall in SF. specialize (SF s IS). apply In_nth_error in IS as [n NS].
  assert (SEQ : 0 <= u32 (d_seq d) < 2 ^ 32) by (unfold u32; apply Z.mod_pos_bound; lia).
  destruct (gbe msg) as [data|] eqn:GE; [|unfold smgp_NewSubmit in EL; cbv zeta in EL; rewrite GE in EL; injection EL as <-; destruct n; discriminate NS].
  destruct (C43_built gbe ac [phone] msg (u32 (d_seq d)) ops (d_now d) (d_g d) (d_nxt d) data (ac_wf_of _ _ AF) (opts_wf_of _ _ OF) ltac:(cbn; lia) SEQ GE) as (msgs & ps & EM & EP & LN & _ & BP).
  assert (msgs = l) as -> by congruence. assert (LT : (n < length ps)%nat) by (unfold bytes in *; rewrite <- LN; apply nth_error_Some; congruence).
  destruct (nth_error ps n) as [c|] eqn:NC; [|apply nth_error_None in NC; lia]. destruct (BP n s c NS NC) as (HO & W & CT & DT & _).
  set (items := sm_items (length ps) n) in *. pose proof (MSubmit_Encode_ok s items HO W) as SE. rewrite EB in SE.
  assert (BR : b = render (head (h_len (ms_h s)) 2 (h_seq (ms_h s)) ++ msubmit_body s (opts_wire items))) by congruence.
  assert (LB : h_len (ms_h s) = 12 + zlen (render (msubmit_body s (opts_wire items))) /\ 13 <= h_len (ms_h s) < 2 ^ 32).
  { destruct W as (_ & _ & HL & HB & _). pose proof (zlen_nonneg (ms_content s)). pose proof (zlen_nonneg (ms_destTermID s)). pose proof (zlen_nonneg (opts_wire items)).
    assert (12 + zlen (render (msubmit_body s (opts_wire items))) = h_len (ms_h s)); [|lia].
    unfold msubmit_body. rewrite !render_app, !zlen_app, zlen_terms, !zlen_render, HL. cbn [widths width]. lia. }
  destruct (render_framed (h_len (ms_h s)) 2 (h_seq (ms_h s)) (msubmit_body s (opts_wire items)) (proj1 LB) (proj2 LB)) as [FR SY]. rewrite <- BR in FR, SY.
  split; [exact FR|]. split; [exact SY|]. intros pr k v r PP PG WK _ D.
  unfold decode_submit in D. rewrite PP, PG in D. apply bind_ok in D as (d' & D & DR). assert (r = QSmgp d') as -> by congruence. clear DR.
  rewrite BR in WK. apply wire_body in WK. rewrite WK, (MSubmit_Decode_ok gbd s items v (pk_seq k) HO W SF) in D. apply bind_ok in D as (ct & SU & D).
  assert (Y : forall a b : msubmit, Ok a = Ok b -> b = a) by congruence. apply Y in D. rewrite D. cbn [addressed reads ms_destTermID ms_content]. split; [exact DT|].
  intros (data' & G1 & G2 & G3 & G4). assert (data' = data) as -> by congruence. rewrite split_short in EP by auto. injection EP as <-. destruct n as [|n]; [|destruct n; discriminate NC]. injection NC as <-.
  rewrite CT, (cut_plain data G4) in SU. assert (ct = data) as -> by congruence. rewrite G2. reflexivity.
Qed.

(** ** Where the packets of a session come from *)
Section Origin.
Variables (cpr : cparams) (gbd : bytes -> option bytes) (i0 : nat) (p : proto) (ac : authconf).
Hypothesis AF : account_fits p ac.
Notation disp := (ac_SmsDisplayNo ac).
Notation good := (good_packet p (cp_gbe cpr) gbd ac).
Definition src := list (bytes * list mtopt * list bytes).
Definition ph_good (msg : bytes) (phones : list bytes) (ph : sphase) : Prop :=
  match ph with
  | SPart i phone parts _ | SWrote i phone _ _ parts _ => i = i0 -> In phone phones /\ forall b key, In (Ok b, key) parts -> good phone msg b
  | _ => True
  end.
Definition send_good (bg : src) (t : nat) (s : sender) : Prop :=
  exists phones, nth_error bg t = Some (sn_msg s, sn_ops s, phones) /\ Forall (opt_fits disp) (sn_ops s) /\ Forall (fits 21) phones /\
    incl (sn_todo s) phones /\ ph_good (sn_msg s) phones (sn_ph s).
Definition log_good (bg : src) (o : cobs) : Prop :=
  match o with
  | OWrote t i b => i = i0 -> exists msg ops phones phone, nth_error bg t = Some (msg, ops, phones) /\ In phone phones /\ good phone msg b
  | OReply _ b => is_reply b
  | _ => True
  end.
Record oinv (bg : src) (c : cstate) : Prop := {
  oi_sess : forall ss, nth_error (ct_sess c) i0 = Some ss -> cs_p ss = p /\ (cs_ac ss = None \/ cs_ac ss = Some ac);
  oi_len : length (ct_send c) = length bg;
  oi_send : forall t s, nth_error (ct_send c) t = Some s -> send_good bg t s;
  oi_log : forall o, In o (ct_log c) -> log_good bg o }.
Definition sess_same (c c1 : cstate) : Prop := forall ss, nth_error (ct_sess c1) i0 = Some ss -> exists s0, nth_error (ct_sess c) i0 = Some s0 /\ cs_p ss = cs_p s0 /\ ac_kept s0 ss.
Lemma same_sess_refl c c1 : ct_sess c1 = ct_sess c -> sess_same c c1.
Proof. intros E ss N. rewrite E in N. exists ss. split; [exact N|]. split; [reflexivity|right; reflexivity]. Qed.
Lemma same_put c i ss s1 : nth_error (ct_sess c) i = Some ss -> cs_p s1 = cs_p ss -> ac_kept ss s1 -> sess_same c (put_sess c i s1).
Proof.
  intros N P A s2 N2. cbn [put_sess ct_sess] in N2. rewrite (nth_upd _ _ _ _ N) in N2. destruct (i0 =? i)%nat eqn:E.
  - apply Nat.eqb_eq in E. subst i. injection N2 as <-. exists ss. auto.
  - exists s2. split; [exact N2|]. split; [reflexivity|right; reflexivity].
Qed.
Lemma same_trans a b c : sess_same a b -> sess_same b c -> sess_same a c.
Proof.
  intros H K ss N. destruct (K ss N) as (s1 & N1 & P1 & A1). destruct (H s1 N1) as (s0 & N0 & P0 & A0). exists s0. split; [exact N0|]. split; [congruence|].
  unfold ac_kept in *. destruct A1 as [A1|A1]; [left; exact A1|]. rewrite A1. exact A0.
Qed.
Lemma same_used c i now : sess_same c (used c i now).
Proof. unfold used. destruct (nth_error (ct_sess c) i) as [s|] eqn:N; [|apply same_sess_refl; reflexivity]. apply (same_put c i s); [exact N|reflexivity|right; reflexivity]. Qed.
Lemma oi_sess_same bg c c1 : oinv bg c -> sess_same c c1 -> forall ss, nth_error (ct_sess c1) i0 = Some ss -> cs_p ss = p /\ (cs_ac ss = None \/ cs_ac ss = Some ac).
Proof. intros H K ss N. destruct (K ss N) as (s0 & N0 & P0 & A0). destruct (oi_sess _ _ H s0 N0) as [X Y]. split; [congruence|]. destruct A0 as [A0|A0]; [left; exact A0|]. rewrite A0. exact Y. Qed.
(** no sender changes *)
Lemma oinv_plain bg c c1 l : oinv bg c -> sess_same c c1 -> ct_send c1 = ct_send c -> ct_log c1 = ct_log c ++ l -> (forall o, In o l -> log_good bg o) -> oinv bg c1.
Proof.
  intros H S E L G. constructor; [exact (oi_sess_same _ _ _ H S)|rewrite E; apply H|rewrite E; apply H|]. rewrite L. intros o I. apply in_app_or in I as [I|I]; [apply H; exact I|auto].
Qed.
Lemma oinv_sender bg c c1 t s s1 l : oinv bg c -> nth_error (ct_send c) t = Some s -> sess_same c c1 -> ct_send c1 = firstn t (ct_send c) ++ [s1] ++ skipn (S t) (ct_send c) ->
  ct_log c1 = ct_log c ++ l -> send_good bg t s1 -> (forall o, In o l -> log_good bg o) -> oinv bg c1.
Proof.
  intros H N SS E L G K. constructor; [exact (oi_sess_same _ _ _ H SS)| | |].
  - rewrite E. rewrite <- (oi_len _ _ H). pose proof (f_equal (@length _) (split_nth (ct_send c) t s N)) as X. rewrite !app_length in X |- *. cbn [length] in *. lia.
  - intros t' s'. rewrite E, (nth_upd _ _ _ _ N). destruct (t' =? t)%nat eqn:T; [apply Nat.eqb_eq in T; subst t'; intros X; injection X as <-; exact G|]. apply H.
  - rewrite L. intros o I. apply in_app_or in I as [I|I]; [apply H; exact I|auto].
Qed.
Lemma send_step bg t s todo rs ph : send_good bg t s -> incl todo (sn_todo s) -> (forall phones, incl (sn_todo s) phones -> ph_good (sn_msg s) phones (sn_ph s) -> Forall (fits 21) phones -> Forall (opt_fits disp) (sn_ops s) -> ph_good (sn_msg s) phones ph) ->
  send_good bg t (phase s todo rs ph).
Proof.
  intros (phones & A & B & C & D & E) I G. exists phones. cbn [phase sn_msg sn_ops sn_todo sn_ph]. repeat split; auto. intros x X. apply D, I, X.
Qed.
Lemma any_packet phone msg ops d parts b key : Forall (opt_fits disp) ops -> fits 21 phone -> fits 16 (d_valid d) -> fits 16 (d_now d) ->
  segments p (cp_gbe cpr) ac phone msg ops d = Ok parts -> In (Ok b, key) parts -> good phone msg b.
Proof.
  intros O F V N E I. destruct p.
  - exact (cmpp_packet _ _ _ _ _ _ _ _ _ _ AF O F V E I).
  - exact (sgip_packet _ _ _ _ _ _ _ _ _ _ AF O F V E I).
  - exact (smgp_packet _ _ _ _ _ _ _ _ _ _ AF O F N E I).
Qed.
Lemma bg_more bg x t s : send_good bg t s -> send_good (bg ++ x) t s.
Proof. intros (phones & A & B). exists phones. split; [|exact B]. rewrite nth_error_app1; [exact A|]. apply nth_error_Some. congruence. Qed.
Lemma bg_more_log bg x o : log_good bg o -> log_good (bg ++ x) o.
Proof.
  destruct o; cbn [log_good]; auto. intros H E. destruct (H E) as (msg & ops & phones & phone & A & B). exists msg, ops, phones, phone. split; [|exact B].
  rewrite nth_error_app1; [exact A|]. apply nth_error_Some. congruence.
Qed.
Lemma oinv_step bg c e c1 : given_fits disp [e] -> oinv bg c -> cstep cpr c e = Ok c1 -> oinv (bg ++ begun [e]) c1.
Proof.
  intros GF H E. apply Forall_inv in GF. destruct e as [q msg ops phones|t choice d now|t ok now|t now|t|i cmd seq body o|i|h d now|d now|d now]; cbn [cstep] in E; cbn [begun flat_map app]; rewrite ?app_nil_r.
  - destruct phones as [|x phones]; injection E as <-.
    + cbn [app]. rewrite app_nil_r. apply (oinv_plain bg c _ [ORet 0] H); try reflexivity; [apply same_sess_refl; reflexivity|]. intros o [<-|[]]. exact I.
    + cbn [app]. destruct GF as [G1 G2]. constructor; cbn [ct_send ct_log ct_sess].
      * apply H.
      * rewrite !app_length, (oi_len _ _ H). reflexivity.
      * intros t s N. destruct (Nat.lt_ge_cases t (length (ct_send c))) as [L|L]; [rewrite nth_error_app1 in N by exact L; apply bg_more, H; exact N|].
        rewrite nth_error_app2 in N by exact L. destruct (t - length (ct_send c))%nat as [|[|?]] eqn:TT; try discriminate N. injection N as <-.
        exists (x :: phones). cbn [sn_msg sn_ops sn_todo sn_ph ph_good]. rewrite nth_error_app2 by (rewrite <- (oi_len _ _ H); exact L). rewrite <- (oi_len _ _ H), TT. cbn [nth_error].
        split; [reflexivity|]. split; [exact G1|]. split; [exact G2|]. split; [intros y Y; exact Y|exact I].
      * intros o IO. apply bg_more_log, H. exact IO.
  - destruct (nth_error (ct_send c) t) as [s|] eqn:N; [|injection E as <-; exact H]. pose proof (oi_send _ _ H t s N) as SG.
    destruct (sn_ph s) eqn:PH; try (injection E as <-; exact H). destruct (sn_todo s) as [|phone rest] eqn:TD; [injection E as <-; exact H|].
    assert (IR : incl rest (sn_todo s)) by (rewrite TD; intros y Y; right; exact Y).
    assert (QUIET : forall c2, sess_same c c2 -> ct_send c2 = firstn t (ct_send c) ++ [phase s rest (sn_res s) SNext] ++ skipn (S t) (ct_send c) -> ct_log c2 = ct_log c ++ [OPick t phone] -> oinv bg c2).
    { intros c2 E0 E1 E2. apply (oinv_sender bg c c2 t s _ [OPick t phone] H N E0 E1 E2); [apply send_step; [exact SG|exact IR|intros; exact I]|intros o [<-|[]]; exact I]. }
    destruct choice as [i|]; [|injection E as <-; apply QUIET; try reflexivity; apply same_sess_refl; reflexivity].
    destruct (nth_error (ct_sess c) i) as [ss|] eqn:NS; [|injection E as <-; exact H]. destruct (HealthCheck ss); [|injection E as <-; exact H].
    destruct (cs_ac ss) as [ac'|] eqn:AC; [|injection E as <-; exact H]. apply bind_ok in E as (parts & EP & E).
    destruct parts as [|x parts].
    + injection E as <-. apply QUIET.
      * exact (same_used (put_send c t (phase s rest (sn_res s) SNext)) i now).
      * cbn [say ct_send]. exact (proj1 (proj2 (used_rest (put_send c t (phase s rest (sn_res s) SNext)) i now))).
      * cbn [say ct_log]. f_equal. exact (proj2 (proj2 (used_rest (put_send c t (phase s rest (sn_res s) SNext)) i now))).
    + injection E as <-. apply (oinv_sender bg c _ t s (phase s rest (sn_res s) (SPart i phone (x :: parts) [])) [OPick t phone] H N); try reflexivity; [apply same_sess_refl; reflexivity| |intros o [<-|[]]; exact I].
      apply send_step; [exact SG|exact IR|]. intros phones IP _ FP FO. cbn [ph_good]. intros ->. destruct (oi_sess _ _ H ss NS) as [PP [AA|AA]]; [congruence|].
      assert (ac' = ac) as -> by congruence. assert (IPH : In phone phones) by (apply IP; rewrite TD; left; reflexivity). split; [exact IPH|].
      intros b key IB. rewrite PP in EP. rewrite Forall_forall in FP. destruct GF as [G1 G2]. exact (any_packet phone (sn_msg s) (sn_ops s) d (x :: parts) b key FO (FP _ IPH) G1 G2 EP IB).
  - destruct (nth_error (ct_send c) t) as [s|] eqn:N; [|injection E as <-; exact H]. pose proof (oi_send _ _ H t s N) as SG.
    destruct (sn_ph s) as [|i phone [|[enc key] r] done| |] eqn:PH; try (injection E as <-; exact H).
    destruct (nth_error (ct_sess c) i) as [ss|] eqn:NS; [|injection E as <-; exact H]. apply bind_ok in E as (b & EB & E). apply reply_ok in EB as [EB _]. subst enc.
    destruct ok.
    + injection E as <-. apply (oinv_sender bg c _ t s (phase s (sn_todo s) (sn_res s) (SWrote i phone b key r done)) [OWrote t i b] H N); try reflexivity; [apply same_sess_refl; reflexivity| |].
      * apply send_step; [exact SG|intros y Y; exact Y|]. intros phones _ PG _ _. rewrite PH in PG. cbn [ph_good] in *. intros EI. destruct (PG EI) as [P1 P2]. split; [exact P1|]. intros b' k' I'. apply (P2 b' k'). right. exact I'.
      * intros o [<-|[]]. cbn [log_good]. intros EI. destruct SG as (phones & A & _ & _ & _ & PG). rewrite PH in PG. cbn [ph_good] in PG. destruct (PG EI) as [P1 P2].
        exists (sn_msg s), (sn_ops s), phones, phone. split; [exact A|]. split; [exact P1|]. apply (P2 b key). left. reflexivity.
    + apply bind_ok in E as (s1 & CL & E). injection E as <-.
      match goal with |- oinv bg (say (used ?x i now) ?l) => apply (oinv_sender bg c _ t s (phase s (sn_todo s) (sn_res s) SNext) l H N); [apply (same_trans c x)| | | |] end.
      * exact (same_put c i ss s1 NS (Close_keeps _ _ CL) (Close_ac _ _ CL)).
      * apply same_used.
      * cbn [say ct_send]. destruct (used_rest (put_send (put_sess c i s1) t (phase s (sn_todo s) (sn_res s) SNext)) i now) as (_ & X & _). rewrite X. reflexivity.
      * cbn [say ct_log]. destruct (used_rest (put_send (put_sess c i s1) t (phase s (sn_todo s) (sn_res s) SNext)) i now) as (_ & _ & X). rewrite X. reflexivity.
      * apply send_step; [exact SG|intros y Y; exact Y|intros; exact I].
      * intros o [<-|[]]. exact I.
  - destruct (nth_error (ct_send c) t) as [s|] eqn:N; [|injection E as <-; exact H]. pose proof (oi_send _ _ H t s N) as SG.
    destruct (sn_ph s) as [| |i phone b key r done|] eqn:PH; try (injection E as <-; exact H). cbv zeta in E.
    destruct r as [|x r]; injection E as <-.
    + match goal with |- oinv bg (used ?x i now) => apply (oinv_plain bg x (used x i now) []); [|apply same_used|apply used_rest|rewrite app_nil_r; apply used_rest|intros o []] end.
      match goal with |- oinv bg (put_send (say _ ?l) t ?s1) => apply (oinv_sender bg c _ t s s1 l H N); try reflexivity; [apply same_sess_refl; reflexivity| |intros o [<-|[]]; exact I] end.
      apply send_step; [exact SG|intros y Y; exact Y|intros; exact I].
    + match goal with |- oinv bg (put_send (say _ ?l) t ?s1) => apply (oinv_sender bg c _ t s s1 l H N); try reflexivity; [apply same_sess_refl; reflexivity| |intros o [<-|[]]; exact I] end.
      apply send_step; [exact SG|intros y Y; exact Y|]. intros phones _ PG _ _. rewrite PH in PG. exact PG.
  - destruct (nth_error (ct_send c) t) as [s|] eqn:N; [|injection E as <-; exact H]. pose proof (oi_send _ _ H t s N) as SG.
    destruct (sn_ph s) eqn:PH; try (injection E as <-; exact H). destruct (sn_todo s) eqn:TD; [|injection E as <-; exact H]. injection E as <-.
    apply (oinv_sender bg c _ t s (phase s [] (sn_res s) SDone) [ORet (sn_q s)] H N); try reflexivity; [apply same_sess_refl; reflexivity| |intros o [<-|[]]; exact I].
    apply send_step; [exact SG|intros y []|intros; exact I].
  - destruct (nth_error (ct_sess c) i) as [ss|] eqn:NS; [|injection E as <-; exact H]. apply bind_ok in E as ([[s1 ca] out] & HO & E). injection E as <-.
    destruct (handler_eff _ _ _ _ _ _ _ _ _ _ HO) as [KP _].
    apply (oinv_plain bg c _ (OGotP i (cs_p ss) cmd seq body :: map (OReply i) out) H); try reflexivity.
    + exact (same_put c i ss s1 NS KP (handler_ac _ _ _ _ _ _ _ _ _ _ HO)).
    + intros x [<-|IX]; [exact I|]. apply in_map_iff in IX as (b & <- & IB). exact (handler_out _ _ _ _ _ _ _ _ _ _ HO b IB).
  - destruct (nth_error (ct_sess c) i) as [ss|] eqn:NS; [|injection E as <-; exact H]. apply bind_ok in E as (s1 & CL & E). injection E as <-.
    apply (oinv_plain bg c _ [] H); try reflexivity; [exact (same_put c i ss s1 NS (Close_keeps _ _ CL) (Close_ac _ _ CL))|cbn; rewrite app_nil_r; reflexivity|intros o []].
  - injection E as <-. apply (oinv_plain bg c _ [] H); try reflexivity; [apply same_sess_refl; reflexivity|cbn; rewrite app_nil_r; reflexivity|intros o []].
  - injection E as <-. apply (oinv_plain bg c _ [] H); try reflexivity; [apply same_sess_refl; reflexivity|cbn; rewrite app_nil_r; reflexivity|intros o []].
  - injection E as <-. apply (oinv_plain bg c _ [] H); try reflexivity; [apply same_sess_refl; reflexivity|cbn; rewrite app_nil_r; reflexivity|intros o []].
Qed.
Lemma oinv_run es : forall bg c c1, given_fits disp es -> oinv bg c -> crun cpr c es = Ok c1 -> oinv (bg ++ begun es) c1.
Proof.
  induction es as [|e es IH]; intros bg c c1 G H E; cbn [crun] in E; [cbn; rewrite app_nil_r; congruence|]. apply bind_ok in E as (c2 & E1 & E2).
  replace (bg ++ begun (e :: es)) with ((bg ++ begun [e]) ++ begun es) by (unfold begun; cbn [flat_map]; rewrite app_nil_r, <- app_assoc; reflexivity).
  apply (IH _ c2); [exact (Forall_inv_tail G)| |exact E2]. apply (oinv_step bg c e c2); [constructor; [exact (Forall_inv G)|constructor]|exact H|exact E1].
Qed.
Lemma oinv_start l : (forall ss, nth_error l i0 = Some ss -> cs_p ss = p /\ (cs_ac ss = None \/ cs_ac ss = Some ac)) -> oinv [] (cstart l).
Proof. intros H. constructor; cbn; [exact H|reflexivity|intros [|t] s N; discriminate N|intros o []]. Qed.
End Origin.
