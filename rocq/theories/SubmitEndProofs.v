(** * SubmitEndProofs: lemmas for C70 - what an SGIP connection carries in both directions. *)
From Coq Require Import Sorting.Permutation.
From Verif Require Import Base UtilsModel OptionsModel SpecText SpecWire CmppModel SgipModel SmgpModel FrameModel SpecServer ServerModel ServerProofs PropFrame PropServer PropWindow PropAnswers
  PropLogins CmppBuildProofs ClientModel SpecClient ClientProofs.

(** ** Packets that start with their own length *)
Definition framed (b : bytes) : Prop := 13 <= zlen b < 2 ^ 32 /\ firstn 4 b = be 4 (zlen b).
(** The command of a packet on the wire. *)
Definition says (b : bytes) (cmd : Z) : Prop := firstn 4 (skipn 4 b) = be 4 cmd.
Lemma says_one b x y : says b x -> says b y -> 0 <= x < 2 ^ 32 -> 0 <= y < 2 ^ 32 -> x = y.
Proof. unfold says. intros A B X Y. rewrite A in B. apply (f_equal unbe) in B. rewrite !(unbe_be_small 4) in B by assumption. exact B. Qed.

Lemma shead_shape h f : shead_Encode h = Ok f -> zlen f = shead_len h /\ firstn 4 f = be 4 (shead_len h) /\ says f (sh_cmd h) /\ 20 <= zlen f.
Proof.
  unfold shead_Encode. cbv zeta. destruct (sh_seq h) as [[a b] c]. intros H.
  apply bind_ok in H as (f1 & E1 & H). apply bind_ok in H as (f2 & E2 & H). apply bind_ok in H as (f3 & E3 & H). apply bind_ok in H as (f4 & E4 & H).
  pose proof (put_fit _ _ _ _ _ _ H) as L. pose proof (put_here _ _ _ _ _ _ E1 eq_refl) as A. pose proof (put_here _ _ _ _ _ _ E2 eq_refl) as B.
  change (Z.to_nat 0) with 0%nat in A. change (Z.to_nat 4) with 4%nat in B. cbn [skipn] in A.
  destruct (put_keep 8 _ _ _ _ _ _ H) as [K5 L5]; [lia|lia|]. destruct (put_keep 8 _ _ _ _ _ _ E4) as [K4 L4]; [lia|lia|]. destruct (put_keep 8 _ _ _ _ _ _ E3) as [K3 L3]; [lia|lia|].
  destruct (put_keep 4 _ _ _ _ _ _ E2) as [K2 L2]; [lia|lia|]. destruct (put_keep 0 _ _ _ _ _ _ E1) as [_ L1]; [lia|lia|].
  assert (Z0 : zlen (zeros (shead_len h)) = shead_len h).
  { unfold zeros, zlen in *. rewrite repeat_length in *. lia. }
  assert (F8 : firstn 8 f = firstn 8 f2) by congruence. split; [lia|]. split; [|split; [|lia]].
  - transitivity (firstn 4 (firstn 8 f)); [rewrite firstn_firstn; reflexivity|]. rewrite F8, firstn_firstn. cbn [Nat.min]. congruence.
  - unfold says. rewrite window_firstn in B |- *. cbn [Nat.add] in *. rewrite F8. exact B.
Qed.
Lemma put_open_len k f lo hi v f' : put_be k f lo hi v = Ok f' -> zlen f' = zlen f.
Proof.
  unfold put_be. destruct (_ && _ && _ && _) eqn:G; [|discriminate]. intros H. assert (X : splice f lo (be k v) = f') by congruence. subst f'. rewrite !andb_true_iff in G.
  unfold splice, zlen in *. rewrite !app_length, firstn_length, skipn_length, length_be. lia.
Qed.
Lemma put_users_len l : forall f i f' i', put_users f i l = Ok (f', i') -> 0 <= i -> zlen f' = zlen f /\ i <= i'.
Proof.
  induction l as [|x l IH]; cbn [put_users]; intros f i f' i' H L.
  - assert (f' = f /\ i' = i) as [-> ->] by (split; congruence). split; lia.
  - apply bind_ok in H as (g & G & H). apply IH in H; [|lia]. apply (copy_open_keep 0) in G; [|lia]. destruct H as [-> ?], G as [_ ->]. split; [reflexivity|lia].
Qed.
Ltac stepz H :=
  lazymatch type of H with
  | bind (set_at _ _ _) _ = Ok _ => let f := fresh "f" in let E := fresh "E" in apply bind_ok in H as (f & E & H); apply (set_keep 0) in E; [destruct E as [_ E]|lia]
  | bind (copy_open _ _ _) _ = Ok _ => let f := fresh "f" in let E := fresh "E" in apply bind_ok in H as (f & E & H); apply (copy_open_keep 0) in E; [destruct E as [_ E]|lia]
  | bind (put_be _ _ _ _ _) _ = Ok _ => let f := fresh "f" in let E := fresh "E" in apply bind_ok in H as (f & E & H); apply put_open_len in E
  end.
Lemma submit_shape s b : SSubmit_Encode s = Ok b -> 20 <= sh_len (ss_h s) < 2 ^ 32 -> framed b /\ says b (sh_cmd (ss_h s)) /\ zlen b = sh_len (ss_h s).
Proof.
  intros H R. unfold SSubmit_Encode in H. apply bind_ok in H as (f0 & F0 & H). apply shead_shape in F0 as (L & A & B & L20).
  assert (SL : shead_len (ss_h s) = sh_len (ss_h s)) by (unfold shead_len; destruct (_ <? 20) eqn:C; lia). rewrite SL in *.
  assert (X : firstn 20 b = firstn 20 f0).
  { clear - H L20. repeat stepk 20%nat H. apply bind_ok in H as ([g i] & G & H). apply (put_users_keep 20) in G; [|lia]. destruct G as [G GI]. cbv zeta in H.
    repeat stepk 20%nat H. pose proof (zlen_nonneg (ss_Content s)). apply (copy_open_keep 20) in H; [destruct H as [H _]|lia]. congruence. }
  assert (Y : zlen b = zlen f0).
  { clear - H. repeat stepz H. apply bind_ok in H as ([g i] & G & H). apply put_users_len in G; [|lia]. destruct G as [G GI]. cbv zeta in H.
    repeat stepz H. pose proof (zlen_nonneg (ss_Content s)). apply (copy_open_keep 0) in H; [destruct H as [_ H]|lia]. congruence. }
  assert (LB : zlen b = sh_len (ss_h s)) by lia. split; [|split; [|exact LB]].
  - split; [lia|]. rewrite LB. rewrite <- A. transitivity (firstn 4 (firstn 20 b)); [rewrite firstn_firstn; reflexivity|]. rewrite X, firstn_firstn. reflexivity.
  - unfold says in *. rewrite window_firstn in B |- *. cbn [Nat.add] in *. rewrite <- B. f_equal. transitivity (firstn 8 (firstn 20 b)); [rewrite firstn_firstn; reflexivity|]. rewrite X, firstn_firstn. reflexivity.
Qed.
(** The packets of one SGIP send. *)
Definition sgip_part_ok (x : res bytes * Z) : Prop := forall b, fst x = Ok b -> framed b /\ says b 3.
Lemma sgip_parts_with (P : ssubmit -> Prop) (Q : bytes -> Prop) mk : (forall i b, Q b -> P (mk i b)) -> forall ps, Forall Q ps -> forall i, Forall P (sgip_parts mk i ps).
Proof. intros A. induction 1 as [|x ps HX _ IH]; intros i; cbn [sgip_parts]; constructor; [apply A; exact HX|apply IH]. Qed.
Lemma segments_shape gbe ac phone msg ops d parts : segments P_SGIP gbe ac phone msg ops d = Ok parts -> Forall sgip_part_ok parts.
Proof.
  cbn [segments]. intros H. apply bind_ok in H as (l & E & H). injection H as <-. apply Forall_map.
  assert (G : Forall (fun s => sh_cmd (ss_h s) = 3 /\ 20 <= sh_len (ss_h s) < 2 ^ 32) l).
  { unfold sgip_NewSubmit in E. cbv zeta in E. destruct (MsgSlices_ok (d_g d) (MsgFmt msg) msg) as (ps & EP & _ & FP). rewrite EP in E. cbn [bind] in E.
    assert (ONE : forall o vd c u q b, zlen b <= 160 -> sh_cmd (ss_h (sgip_part ac o [phone] vd c u q b)) = 3 /\ 20 <= sh_len (ss_h (sgip_part ac o [phone] vd c u q b)) < 2 ^ 32).
    { intros o vd c u q b Z. unfold sgip_part. cbn [ss_h sh_cmd sh_len]. split; [reflexivity|]. pose proof (zlen_nonneg b). change (zlen [phone]) with 1. unfold u32. rewrite Z.mod_small; lia. }
    destruct ps as [|x [|y ps]].
    - injection E as <-. constructor.
    - injection E as <-. constructor; [|constructor]. apply ONE. exact (Forall_inv FP).
    - assert (J : forall a b : list ssubmit, Ok a = Ok b -> b = a) by congruence. apply J in E. rewrite E. apply (sgip_parts_with _ (fun b => zlen b <= 160)); [|exact FP]. intros i b Z. apply ONE. exact Z. }
  revert G. apply Forall_impl. intros s [G1 G2] b B. cbn [fst] in B. destruct (submit_shape s b B G2) as (X & Y & _). rewrite G1 in Y. auto.
Qed.

(** ** What an SGIP server writes *)
(** Only the answer to a submit carries the command of a submit answer. *)
Definition sg_out (kd : okind) (b : bytes) : Prop := match kd with KSubmit k _ _ => pk_cmd k = 3 | _ => ~ says b 2147483651 end.
Definition sg_job (j : job) : Prop :=
  match j with
  | JLogin _ l => exists b, l = LSgip b
  | JSubmit k r | JFlow k r => pk_cmd k = 3 /\ exists s, r = QSgip s
  | JActive _ _ => False
  | JTerm _ b => exists h, b = BSgip h
  | JDly b => ~ says b 2147483651
  | _ => True
  end.
Definition sg_ok (c : sconn) : Prop :=
  (forall t, In t (sc_tasks c) -> sg_job (fst t)) /\ (forall it, In it (sc_queue c) -> sg_out (fst (fst it)) (snd (fst it))) /\
  (forall kd b, In (OOut kd b) (sc_log c) -> sg_out kd b).
Lemma shead_says h f x : shead_Encode h = Ok f -> 0 <= sh_cmd h < 2 ^ 32 -> 0 <= x < 2 ^ 32 -> sh_cmd h <> x -> ~ says f x.
Proof. intros H R X N S. apply shead_shape in H as (_ & _ & H & _). apply N. apply (says_one f); assumption. Qed.
Lemma keep_says n f g x : firstn n f = firstn n g -> (8 <= n)%nat -> says f x -> says g x.
Proof.
  unfold says. intros E L H. rewrite window_firstn in H |- *. cbn [Nat.add] in *. rewrite <- H. f_equal.
  assert (Y : forall l : bytes, firstn 8 l = firstn 8 (firstn n l)) by (intros l; rewrite firstn_firstn; f_equal; lia). rewrite (Y g), (Y f), E. reflexivity.
Qed.
Lemma bind_answer_says l code md5 b : login_answer md5 (LSgip l) code = Ok b -> ~ says b 2147483651.
Proof.
  cbn [login_answer]. unfold BindRsp_Encode, Bind_ToResponse. cbn [sr_h sr_status]. intros H. apply bind_ok in H as (f & F & H).
  assert (N : ~ says f 2147483651) by (apply (shead_says _ _ _ F); cbn; unfold RESP, SG_BIND; lia).
  destruct (_ && _).
  - apply (set_keep 8) in H; [|lia]. destruct H as [H _]. intros X. apply N. exact (keep_says 8 b f _ H (Nat.le_refl _) X).
  - injection H as <-. exact N.
Qed.
Lemma sg_item pr o j it : pr_p pr = P_SGIP -> item_of pr o j it -> sg_job j -> (exists k b, it = (KReport k, b, CbReport)) \/ sg_out (fst (fst it)) (snd (fst it)).
Proof.
  intros P H J. destruct H as [k l code0 l1 code b LC C1 C2 C3 C4 A|k r b E|k r code b C E|k r b|k x b A|k x b A|b A|b A|b]; cbn [fst snd sg_out sg_job] in *;
    [right|right; exact (proj1 J)|right; exact (proj1 J)|left; exists k, b; reflexivity|destruct J|right|right|right|right].
  - cbn [sg_job] in J. destruct J as [b0 ->]. cbn [login_check] in LC. assert (l1 = LSgip b0) as -> by congruence. exact (bind_answer_says _ _ _ _ A).
  - cbn [sg_job] in J. destruct J as [h ->]. rewrite P in A. cbn [term_answer] in A. apply (shead_says _ _ _ A); cbn; unfold RESP, SG_UNBIND; lia.
  - rewrite P in A. cbn [force_packet] in A. apply (shead_says _ _ _ A); cbn; unfold RESP, SG_UNBIND; lia.
  - rewrite P in A. discriminate A.
  - exact J.
Qed.
Lemma sg_item' pr o j it : pr_p pr = P_SGIP -> item_of pr o j it -> sg_job j -> (forall k r, j <> JSubmit k r) \/ (exists k x code, fst (fst it) = KSubmit k x code) -> sg_out (fst (fst it)) (snd (fst it)).
Proof.
  intros P H J N. destruct (sg_item pr o j it P H J) as [(k & b & E)|R]; [|exact R]. subst it. destruct N as [N|(k' & x & code & E)]; [|discriminate E].
  inversion H; subst. exfalso. eapply N. reflexivity.
Qed.
Lemma sg_note c o : sg_ok c -> (forall kd b, o <> OOut kd b) -> sg_ok (note c o).
Proof. intros (A & B & C) N. split; [exact A|]. split; [exact B|]. cbn [note sc_log]. intros kd b I. apply in_app_or in I as [I|[I|[]]]; [auto|exfalso; exact (N _ _ I)]. Qed.
Lemma sg_spawn c j : sg_ok c -> sg_job j -> sg_ok (spawn c j).
Proof. intros (A & B & C) J. split; [|split; [exact B|exact C]]. intros t I. cbn in I. apply in_app_or in I as [I|[<-|[]]]; auto. Qed.
Lemma sg_close c : sg_ok c -> sg_ok (OnClose c).
Proof.
  intros H. unfold OnClose. destruct (negb (sc_open c)); [exact H|]. apply sg_note; [|discriminate]. destruct H as (A & B & C).
  split; [exact A|]. split; [intros it []|exact C].
Qed.
Lemma sg_task pr o i c : pr_p pr = P_SGIP -> sg_ok c -> sg_ok (on_task pr o i c).
Proof.
  intros P H. destruct (nth_error (sc_tasks c) i) as [[j q]|] eqn:N; [|unfold on_task; rewrite N; exact H].
  pose proof H as (HT & HQ & HL). assert (J : sg_job j) by (apply (HT (j, q)); eapply nth_error_In; eauto).
  assert (U : forall q', sg_ok (with_tasks c (upd (sc_tasks c) i (j, q')))).
  { intros q'. split; [|split; assumption]. intros t Ht. apply (in_upd _ _ _ _ _ N) in Ht as [->|Ht]; auto. }
  assert (V : sg_ok (with_tasks c (del (sc_tasks c) i))) by (split; [intros t Ht; apply in_del in Ht; auto|split; assumption]).
  assert (PU : forall s its ts w, sg_ok (with_tasks c ts) -> (forall it, In it its -> sg_out (fst (fst it)) (snd (fst it))) ->
    sg_ok (SConn (sc_buf c) (sc_open c) s (sc_chans c) ts (sc_queue c ++ its) w (sc_log c))).
  { intros s its ts w (A & _) B. split; [exact A|]. split; [|exact HL]. intros it I. cbn in I. apply in_app_or in I as [I|I]; auto. }
  assert (RP : (exists k r a, j = JSubmit k r /\ q = PReport a) \/ forall k r a, j = JSubmit k r -> q <> PReport a).
  { destruct j; try (right; intros; discriminate). destruct q; try (right; intros; discriminate). left. eauto. }
  destruct RP as [(k & r & a & -> & ->)|RP].
  { cbn [sg_job] in J. destruct J as [_ [s ->]]. unfold on_task. rewrite N. cbn [plain_job report report_bytes bind]. destruct a; apply U. }
  destruct (on_task_step pr o i c j q N) as [W F|Ej|it W I1 C1|g W Q|W Q SS|W Q|k r it code a Ej Eq I1 C1 Ec Ek Ea|s' its w W Eq Nj SS It Wi|its a k Eq W It|g W Q|W Q]; auto.
  - apply PU; [exact V|]. intros x [<-|[]]. apply (sg_item' pr o j); auto. left. intros k r ->. discriminate W.
  - unfold try_send. destruct (ch_closed _); [exact V|]. destruct (_ <? _); [|apply U]. exact (U PWork).
  - apply PU; [apply U|]. intros x [<-|[]]. apply (sg_item' pr o j); auto. right. eauto.
  - apply PU; [apply U|]. intros x Hx. destruct It as [->|(it & -> & I1 & _)]; [destruct Hx|]. destruct Hx as [<-|[]]. apply (sg_item' pr o j); auto.
  - destruct It as [->|(b & -> & I1 & C1)]; [apply PU; [apply U|intros x []]|]. inversion I1; subst. exfalso. exact (RP _ _ _ eq_refl eq_refl).
  - unfold try_recv. destruct (_ <? _); [exact V|]. destruct (ch_closed _); [exact V|apply U].
Qed.
Lemma sg_write o c c' : sg_ok c -> on_write o c = Ok c' -> sg_ok c'.
Proof.
  intros H E. unfold on_write in E. destruct (sc_open c); [|injection E as <-; exact H]. destruct (sc_queue c) as [|[[kd b] f] r] eqn:Q; [injection E as <-; exact H|].
  destruct H as (A & B & C). assert (IF : sg_out kd b) by (apply (B (kd, b, f)); rewrite Q; left; reflexivity).
  assert (H1 : sg_ok (note (with_queue c r) (OOut kd b))).
  { split; [exact A|]. split; [intros it I; apply B; rewrite Q; right; exact I|]. cbn [note sc_log with_queue]. intros kd' b' I. apply in_app_or in I as [I|[I|[]]]; [auto|injection I as <- <-; exact IF]. }
  set (c1 := note _ _) in *. clearbody c1.
  destruct f; cbn [callback] in E; try (injection E as <-; exact H1).
  - destruct ac as [ac|]; destruct (code =? 0); try discriminate; try (injection E as <-; exact H1).
    apply bind_ok in E as (c2 & E2 & E). injection E as <-. unfold completeLogin in E2. destruct (_ <? 0); [discriminate|]. injection E2 as <-.
    apply sg_note; [exact H1|discriminate].
  - destruct (code =? 0); injection E as <-; exact H1.
Qed.
(** A simulated delivery is not an answer to a submit. *)
Definition dly_ok (es : list (event * orc)) : Prop := Forall (fun e => forall b, o_dly (snd e) = Some b -> ~ says b 2147483651) es.
Lemma sg_step pr c e c' : pr_p pr = P_SGIP -> dly_ok [e] -> sg_ok c -> step pr c e = Ok c' -> sg_ok c'.
Proof.
  intros P DL H E. apply Forall_inv in DL. destruct e as [[seg|i| | |] o]; cbn [step fst snd] in *.
  - apply on_recv_step in E. destruct E as [O1|O1 F|O1 F|k rest O1 F N|k rest h a c1 O1 F Hin Hc HA]; try exact H.
    + apply sg_close. exact H.
    + assert (G : sg_ok c1).
      { inversion HA; subst; try (apply sg_spawn); try (apply sg_note; [|discriminate]); try (apply sg_note; [|discriminate]); try exact H; cbn [sg_job].
        - rewrite P in *. cbn [decode_login] in *. match goal with D : bind _ _ = Ok l |- _ => apply bind_ok in D as (x & _ & D); injection D as <-; eauto end.
        - split; [rewrite P in *; symmetry; exact Hc|]. unfold decode_submit in *. rewrite P in *. match goal with D : bind _ _ = Ok r |- _ => apply bind_ok in D as (x & _ & D); injection D as <-; eauto end.
        - split; [rewrite P in *; symmetry; exact Hc|]. unfold decode_submit in *. rewrite P in *. match goal with D : bind _ _ = Ok r |- _ => apply bind_ok in D as (x & _ & D); injection D as <-; eauto end.
        - rewrite P in *. destruct h; try congruence; cbn [decode_other] in *; match goal with D : bind _ _ = Ok j |- _ => apply bind_ok in D as (x & _ & D); injection D as <-; cbn [sg_job]; eauto end. }
      destruct a; [exact G|apply sg_close; exact G].
  - injection E as <-. apply sg_task; auto.
  - eapply sg_write; eauto.
  - injection E as <-. unfold on_tick. destruct (negb _); [exact H|]. destruct (_ || _); [destruct (o_acc o); [apply sg_spawn|]; solve [exact H|exact I]|].
    destruct (se_stat (sc_sess c)); try exact H. assert (H1 : sg_ok (if o_acc o then spawn c JHeart else c)) by (destruct (o_acc o); [apply sg_spawn|]; solve [exact H|exact I]).
    destruct (o_dly o) as [b|] eqn:EB; [|exact H1]. destruct (o_acc2 o); [|exact H1]. apply sg_spawn; [exact H1|]. cbn [sg_job]. apply DL. reflexivity.
  - injection E as <-. apply sg_close. exact H.
Qed.
Lemma sg_run pr es : pr_p pr = P_SGIP -> dly_ok es -> forall c c', sg_ok c -> run pr c es = Ok c' -> sg_ok c'.
Proof.
  intros P D. induction D as [|e es D DS IH]; intros c c' H E; cbn [run] in E; [congruence|]. apply bind_ok in E as (c1 & E1 & E2).
  apply (IH c1 c'); [|exact E2]. apply (sg_step pr c e c1); auto. constructor; [exact D|constructor].
Qed.

(** ** What an SGIP server reads *)
Lemma dch_drain p drain n buf : firstn 4 buf = be 4 n -> 13 <= n < 2 ^ 32 -> bytes_ok buf -> DecodeAndCheckHeader p drain buf = DecodeAndCheckHeader p false buf.
Proof.
  intros F R B. unfold DecodeAndCheckHeader. destruct (zlen buf <? 12) eqn:C; [reflexivity|].
  assert (P : forall d, Peek d 12 buf = firstn 12 buf) by (intros d; unfold Peek; change (12 <=? 0) with false; cbv iota; rewrite C; reflexivity).
  assert (Hh : zlen (firstn 12 buf) = 12) by (unfold zlen in *; rewrite firstn_length; lia).
  destruct (unpack_be (firstn 12 buf) (bytes_ok_firstn _ _ B) Hh) as (l & c & q & E & Eh & Rl & Rc & Rq). rewrite !P, E. cbn [bind].
  assert (L : l = n).
  { assert (X : firstn 4 (firstn 12 buf) = be 4 l) by (rewrite Eh, firstn_app, length_be, firstn_all2 by (rewrite length_be; lia); cbn [Nat.sub]; rewrite firstn_O; apply app_nil_r).
    rewrite firstn_firstn in X. cbn [Nat.min] in X. rewrite F in X. apply (f_equal unbe) in X. rewrite !(unbe_be_small 4) in X by (change (256 ^ Z.of_nat 4) with (2 ^ 32); lia). congruence. }
  subst l. destruct (_ || _); [reflexivity|]. destruct (has_suffix _ _); [reflexivity|]. destruct (zlen buf <? n) eqn:C4; [reflexivity|].
  unfold Peek, Discard. change (12 <=? 0) with false. cbv iota. rewrite C. replace (n - 12 <=? 0) with false by lia. reflexivity.
Qed.
(** The bytes that arrived. *)
Definition received (es : list (event * orc)) : bytes := concat (map (fun e => match fst e with ERecv s => s | _ => [] end) es).
(** The packets handed to the handlers. *)
Definition gots (log : list obs) : list packet := flat_map (fun o => match o with OGot k => [k] | _ => [] end) log.
(** [sub xs ys]: xs is ys with some elements left out. *)
Inductive sub {A} : list A -> list A -> Prop :=
| sub_nil l : sub [] l
| sub_skip x y l : sub x l -> sub x (y :: l)
| sub_take x l m : sub l m -> sub (x :: l) (x :: m).
Lemma sub_in {A} (l m : list A) x : sub l m -> In x l -> In x m.
Proof. induction 1; [intros []|right; auto|intros [->|I]; [left; reflexivity|right; auto]]. Qed.
Lemma framed_wire k : framed (PropFrame.wire k) -> pk_body k <> [].
Proof. intros [[L _] _] E. rewrite zlen_wire, E in L. cbn in L. lia. Qed.
(** The first packet of a stream of packets, when something could be cut off its front. *)
Lemma cut_framed p drain buf tail b bs k rest : framed b -> bytes_ok buf -> buf ++ tail = concat (b :: bs) -> DecodeAndCheckHeader p drain buf = Ok (FPass k rest) ->
  PropFrame.wire k = b /\ rest ++ tail = concat bs /\ legal p k.
Proof.
  intros [FR FB] B E D. cbn [concat] in E.
  assert (L12 : 12 <= zlen buf) by (unfold DecodeAndCheckHeader in D; destruct (zlen buf <? 12) eqn:C; [discriminate D|lia]).
  assert (F4 : firstn 4 buf = be 4 (zlen b)).
  { transitivity (firstn 4 (buf ++ tail)); [rewrite firstn_app; replace (4 - length buf)%nat with 0%nat by (unfold zlen in L12; lia); rewrite firstn_O, app_nil_r; reflexivity|].
    rewrite E, firstn_app. replace (4 - length b)%nat with 0%nat by (unfold zlen in FR; lia). rewrite firstn_O, app_nil_r. exact FB. }
  rewrite (dch_drain p drain (zlen b) buf F4 FR B) in D. destruct (dch_any p buf B) as (fo & D' & X). rewrite D' in D. assert (fo = FPass k rest) as -> by congruence. destruct X as [LG EB].
  assert (LW : zlen (PropFrame.wire k) = zlen b).
  { assert (Y : firstn 4 buf = be 4 (12 + zlen (pk_body k))).
    { rewrite EB, wire_head. unfold SpecWire.render, SpecWire.head. cbn [map concat SpecWire.render1]. rewrite <- !app_assoc. rewrite firstn_app, length_be, firstn_all2 by (rewrite length_be; lia). cbn [Nat.sub]. rewrite firstn_O. apply app_nil_r. }
    rewrite F4 in Y. apply (f_equal unbe) in Y. destruct LG as (_ & _ & _ & L5). pose proof (zlen_nonneg (pk_body k)). rewrite !(unbe_be_small 4) in Y by (change (256 ^ Z.of_nat 4) with (2 ^ 32); lia). rewrite zlen_wire. congruence. }
  rewrite EB, <- app_assoc in E. assert (LN : length (PropFrame.wire k) = length b) by (unfold zlen in LW; lia).
  assert (W : PropFrame.wire k = b) by (apply (f_equal (firstn (length b))) in E; rewrite !firstn_app, LN, Nat.sub_diag in E; rewrite !firstn_all2 in E by lia; rewrite !firstn_O, !app_nil_r, ?firstn_all in E; exact E).
  split; [exact W|]. split; [|exact LG]. rewrite W in E. apply app_inv_head in E. exact E.
Qed.
(** The packets accepted for processing. *)
Definition serves (log : list obs) : list packet := flat_map (fun o => match o with OServe k _ => [k] | _ => [] end) log.
Definition seg_of (e : event * orc) : bytes := match fst e with ERecv s => s | _ => [] end.
Lemma gots_app a b : gots (a ++ b) = gots a ++ gots b. Proof. apply flat_map_app. Qed.
Lemma serves_app a b : serves (a ++ b) = serves a ++ serves b. Proof. apply flat_map_app. Qed.
Definition got_step (pr : params) (c : sconn) (e : event * orc) (c' : sconn) (l : list obs) : Prop :=
  (gots l = [] /\ serves l = [] /\ (sc_open c' = true -> sc_open c = true /\ sc_buf c' = sc_buf c ++ seg_of e)) \/
  (exists k rest, sc_open c = true /\ DecodeAndCheckHeader (pr_p pr) (pr_drain pr) (sc_buf c ++ seg_of e) = Ok (FPass k rest) /\
     (gots l = [] /\ serves l = [] \/ gots l = [k] /\ (serves l = [] \/ serves l = [k])) /\ (sc_open c' = true -> sc_buf c' = rest)).
Lemma close_shape c : exists l, sc_log (OnClose c) = sc_log c ++ l /\ gots l = [] /\ serves l = [] /\ sc_open (OnClose c) = false.
Proof.
  unfold OnClose. destruct (sc_open c) eqn:O; cbn [negb].
  - exists [OClose]. repeat split.
  - exists []. rewrite app_nil_r. auto.
Qed.
Lemma step_got pr c e c' : step pr c e = Ok c' -> exists l, sc_log c' = sc_log c ++ l /\ got_step pr c e c' l.
Proof.
  intros E. destruct e as [[seg|i| | |] o]; cbn [step fst snd] in *.
  - apply on_recv_step in E. destruct E as [O1|O1 F|O1 F|k rest O1 F N|k rest h a c1 O1 F Hin Hc HA].
    + exists []. rewrite app_nil_r. split; [reflexivity|]. left. repeat split; congruence.
    + exists []. split; [cbn; rewrite app_nil_r; reflexivity|]. left. repeat split; auto.
    + destruct (close_shape (with_buf c (sc_buf c ++ seg))) as (l & A & B & B' & C). exists l. split; [exact A|]. left. repeat split; auto; congruence.
    + exists []. split; [cbn; rewrite app_nil_r; reflexivity|]. right. exists k, rest. repeat split; auto.
    + assert (G : exists l, sc_log c1 = sc_log c ++ l /\ gots l = [k] /\ (serves l = [] \/ serves l = [k]) /\ sc_open c1 = sc_open c).
      { inversion HA; subst; cbn [spawn with_tasks note sc_log sc_open]; try (exists [OGot k]; repeat split; auto; fail).
        - exists [OGot k; OServe k true]. rewrite <- app_assoc. repeat split; auto.
        - exists [OGot k; OServe k true]. rewrite <- app_assoc. repeat split; auto.
        - exists [OGot k; OServe k false]. rewrite <- app_assoc. repeat split; auto.
        - exists [OGot k; OServe k false]. rewrite <- app_assoc. repeat split; auto. }
      destruct G as (l & A & B & C & O). destruct a; cbn [ServerProofs.closing].
      * exists l. split; [exact A|]. right. exists k, rest. split; [exact O1|]. split; [exact F|]. split; [right; auto|]. intros _. reflexivity.
      * destruct (close_shape (with_buf c1 rest)) as (l' & A' & B' & B2 & C'). exists (l ++ l'). split; [rewrite A'; cbn [with_buf sc_log]; rewrite A, app_assoc; reflexivity|].
        right. exists k, rest. split; [exact O1|]. split; [exact F|]. rewrite gots_app, serves_app, B', B2, !app_nil_r. split; [right; auto|]. intros X. congruence.
  - injection E as <-. exists []. rewrite app_nil_r.
    assert (G : sc_log (on_task pr o i c) = sc_log c /\ sc_open (on_task pr o i c) = sc_open c /\ sc_buf (on_task pr o i c) = sc_buf c).
    { destruct (nth_error (sc_tasks c) i) as [[j q]|] eqn:N; [|unfold on_task; rewrite N; auto].
      destruct (on_task_step pr o i c j q N) as [W F|Ej|it W I1 C1|g W Q|W Q SS|W Q|k r it code a Ej Eq I1 C1 Ec Ek Ea|s' its w W Eq Nj SS It Wi|its a k Eq W It|g W Q|W Q]; auto.
      - unfold try_send. destruct (ch_closed _); [auto|]. destruct (_ <? _); auto.
      - unfold try_recv. destruct (_ <? _); [auto|]. destruct (ch_closed _); auto. }
    destruct G as (A & B & C). split; [exact A|]. left. cbn. rewrite app_nil_r, B, C. auto.
  - unfold on_write in E. destruct (sc_open c) eqn:O1; [|injection E as <-; exists []; rewrite app_nil_r; split; [reflexivity|]; left; repeat split; congruence].
    destruct (sc_queue c) as [|[[kd b] f] r] eqn:Q; [injection E as <-; exists []; rewrite app_nil_r; split; [reflexivity|]; left; cbn; rewrite app_nil_r; auto|].
    assert (G : exists l, sc_log c' = (sc_log c ++ [OOut kd b]) ++ l /\ gots l = [] /\ serves l = [] /\ sc_buf c' = sc_buf c).
    { destruct f; cbn [callback] in E; try (injection E as <-; exists []; rewrite app_nil_r; repeat split; fail).
      - destruct ac as [ac|]; destruct (code =? 0); try discriminate; try (injection E as <-; exists []; rewrite app_nil_r; repeat split; fail).
        apply bind_ok in E as (c2 & E2 & E). injection E as <-. unfold completeLogin in E2. destruct (_ <? 0); [discriminate|]. injection E2 as <-.
        exists [OLogin k ac]. repeat split.
      - exists []. rewrite app_nil_r. destruct (code =? 0); injection E as <-; repeat split. }
    destruct G as (l & A & B & C & D). exists (OOut kd b :: l). split; [rewrite A, <- app_assoc; reflexivity|]. left. split; [exact B|]. split; [exact C|]. intros _. cbn. rewrite app_nil_r. auto.
  - injection E as <-. exists []. rewrite app_nil_r.
    assert (G : sc_log (on_tick pr o c) = sc_log c /\ sc_open (on_tick pr o c) = sc_open c /\ sc_buf (on_tick pr o c) = sc_buf c).
    { unfold on_tick. destruct (negb _); [auto|]. destruct (_ || _); [destruct (o_acc o); auto|]. destruct (se_stat _); auto. destruct (o_acc o), (o_dly o); auto; destruct (o_acc2 o); auto. }
    destruct G as (A & B & C). split; [exact A|]. left. cbn. rewrite app_nil_r, B, C. auto.
  - injection E as <-. destruct (close_shape c) as (l & A & B & B' & C). exists l. split; [exact A|]. left. repeat split; auto; congruence.
Qed.
Lemma sub_app {A} (a b c d : list A) : sub a b -> sub c d -> sub (a ++ c) (b ++ d).
Proof. intros H K. induction H as [l|x y l H IH|x l m H IH]; cbn [app]; [|apply sub_skip; exact IH|apply sub_take; exact IH]. induction l as [|y l IH]; cbn [app]; [exact K|apply sub_skip; exact IH]. Qed.
Lemma sub_refl {A} (l : list A) : sub l l.
Proof. induction l; [apply sub_nil|apply sub_take; assumption]. Qed.
Lemma silent_run pr es c c' : sc_open c = false -> run pr c es = Ok c' -> sc_log c' = sc_log c.
Proof. intros O R. exact (proj2 (C50_silent pr c es c' O R)). Qed.
Lemma frames_run pr es : forall c c' bs, run pr c es = Ok c' -> Forall framed bs -> bytes_ok (sc_buf c) -> segs_ok es ->
  (sc_open c = true -> exists tail, sc_buf c ++ received es ++ tail = concat bs) ->
  exists l, sc_log c' = sc_log c ++ l /\ sub (map PropFrame.wire (gots l)) bs /\ sub (serves l) (gots l) /\ Forall (legal (pr_p pr)) (gots l).
Proof.
  induction es as [|e es IH]; intros c c' bs R FB B SG T; cbn [run] in R.
  - injection R as <-. exists []. rewrite app_nil_r. repeat constructor.
  - destruct (sc_open c) eqn:O.
    2:{ exists []. rewrite app_nil_r. split; [|repeat constructor]. apply (silent_run pr (e :: es) c c' O). cbn [run]. exact R. }
    specialize (T eq_refl). apply bind_ok in R as (c1 & E1 & R). destruct (step_got pr c e c1 E1) as (l & LG & G).
    assert (BS : bytes_ok (sc_buf c ++ seg_of e)).
    { apply Forall_app. split; [exact B|]. apply Forall_inv in SG. unfold seg_of. destruct (fst e); [exact SG|constructor|constructor|constructor|constructor]. }
    assert (RC : forall tail, sc_buf c ++ received (e :: es) ++ tail = (sc_buf c ++ seg_of e) ++ received es ++ tail).
    { intros tail. unfold received. cbn [map concat]. fold (seg_of e). rewrite <- !app_assoc. reflexivity. }
    destruct T as [tail T]. rewrite RC in T.
    destruct (sc_open c1) eqn:O1.
    2:{ exists l. split; [rewrite (silent_run pr es c1 c' O1 R); exact LG|]. destruct G as [(-> & -> & _)|(k & rest & _ & D & W & _)]; [repeat constructor|].
        destruct W as [[-> ->]|[-> W]]; [repeat constructor|]. assert (S2 : sub (serves l) [k]) by (destruct W as [->| ->]; [apply sub_skip, sub_nil|apply sub_refl]).
        destruct bs as [|b bs]; [|].
        - exfalso. apply app_eq_nil in T as [T _]. rewrite T in D. cbn in D. discriminate D.
        - destruct (cut_framed _ _ _ _ b bs k rest (Forall_inv FB) BS T D) as (<- & _ & LG1). cbn [map]. split; [apply sub_take, sub_nil|]. split; [exact S2|]. constructor; [exact LG1|constructor]. }
    destruct G as [(G1 & G2 & G3)|(k & rest & _ & D & W & G3)].
    + destruct (G3 O1) as [_ G4]. destruct (IH c1 c' bs R FB) as (l' & LG' & S1 & S2 & S3); [rewrite G4; exact BS|exact (Forall_inv_tail SG)|intros _; exists tail; rewrite G4; exact T|].
      exists (l ++ l'). rewrite LG', LG, <- app_assoc. split; [reflexivity|]. rewrite gots_app, serves_app, G1, G2. auto.
    + specialize (G3 O1). destruct bs as [|b bs]; [exfalso; apply app_eq_nil in T as [T _]; rewrite T in D; cbn in D; discriminate D|].
      destruct (cut_framed _ _ _ _ b bs k rest (Forall_inv FB) BS T D) as (W1 & T1 & LG1).
      destruct (IH c1 c' bs R (Forall_inv_tail FB)) as (l' & LG' & S1 & S2 & S3); [rewrite G3; apply (dch_bytes _ _ _ _ _ BS D)|exact (Forall_inv_tail SG)|intros _; exists tail; rewrite G3; exact T1|].
      exists (l ++ l'). rewrite LG', LG, <- app_assoc. split; [reflexivity|]. rewrite gots_app, serves_app.
      destruct W as [[-> ->]|[-> W]]; [split; [apply sub_skip; exact S1|split; [exact S2|exact S3]]|]. cbn [app map]. rewrite W1. split; [apply sub_take; exact S1|]. split; [|constructor; [exact LG1|exact S3]].
      destruct W as [->| ->]; cbn [app]; [apply sub_skip; exact S2|apply sub_take; exact S2].
Qed.

(** ** What an SGIP session of the client writes *)
Definition proto_at (ps : list proto) (i : nat) : proto := nth i ps P_CMPP.
(** The packets written on session i, in order: submits and answers. *)
Definition up (i : nat) (log : list cobs) : list bytes :=
  flat_map (fun o => match o with OWrote _ j b | OReply j b => if (j =? i)%nat then [b] else [] | _ => [] end) log.
(** The wire keys of all packets written by senders. *)
Definition wkeys (ps : list proto) (log : list cobs) : list Z :=
  flat_map (fun o => match o with OWrote _ i b => [wire_key (proto_at ps i) b] | _ => [] end) log.
Definition pkey (ps : list proto) (s : sender) : list Z := match sn_ph s with SWrote i _ b _ _ _ => [wire_key (proto_at ps i) b] | _ => [] end.
Definition pend (ps : list proto) (l : list sender) : list Z := flat_map (pkey ps) l.
Definition cnt (z : Z) (l : list Z) : nat := count_occ Z.eq_dec l z.
Definition part_state (ps : list proto) (log : list cobs) (t : nat) (s : sender) : Prop :=
  match sn_ph s with
  | SPart i _ parts _ => proto_at ps i = P_SGIP -> Forall sgip_part_ok parts
  | SWrote i _ b _ parts _ => (proto_at ps i = P_SGIP -> Forall sgip_part_ok parts) /\ In (OWrote t i b) log
  | _ => True
  end.
Definition obs_state (ps : list proto) (log : list cobs) (o : cobs) : Prop :=
  match o with
  | OWrote t i b => proto_at ps i = P_SGIP -> framed b /\ says b 3
  | OReply i b => proto_at ps i = P_SGIP -> framed b /\ says b 2147483650
  | OGotP i p _ _ _ => p = proto_at ps i
  | ORec t p _ b => exists i, In (OWrote t i b) log /\ p = proto_at ps i
  | _ => True
  end.
Record cinv (ps : list proto) (c : cstate) : Prop := {
  ci_ps : protos c = ps;
  ci_send : forall t s, nth_error (ct_send c) t = Some s -> part_state ps (ct_log c) t s;
  ci_log : forall o, In o (ct_log c) -> obs_state ps (ct_log c) o;
  ci_cnt : forall z, (cnt z (map snd (recs (ct_log c))) + cnt z (pend ps (ct_send c)) <= cnt z (wkeys ps (ct_log c)))%nat }.
Lemma cnt_app z a b : cnt z (a ++ b) = (cnt z a + cnt z b)%nat.
Proof. apply count_occ_app. Qed.
Lemma pend_upd ps l t s s1 z : nth_error l t = Some s -> (cnt z (pend ps (firstn t l ++ [s1] ++ skipn (S t) l)) + cnt z (pkey ps s) = cnt z (pend ps l) + cnt z (pkey ps s1))%nat.
Proof.
  intros N. rewrite (split_nth l t s N) at 3. unfold pend. rewrite !flat_map_app. cbn [flat_map]. rewrite !app_nil_r, !cnt_app. lia.
Qed.
Lemma part_more ps log l t s : part_state ps log t s -> part_state ps (log ++ l) t s.
Proof. unfold part_state. destruct (sn_ph s); auto. intros [A B]. split; [exact A|apply in_or_app; auto]. Qed.
Lemma obs_more ps log l o : obs_state ps log o -> obs_state ps (log ++ l) o.
Proof. destruct o; cbn; auto. intros (i & A & B). exists i. split; [apply in_or_app; auto|exact B]. Qed.
(** A step that changes one sender and the log. *)
Lemma cinv_sender ps c c1 t s s1 l : cinv ps c -> nth_error (ct_send c) t = Some s -> ct_send c1 = firstn t (ct_send c) ++ [s1] ++ skipn (S t) (ct_send c) ->
  protos c1 = protos c -> ct_log c1 = ct_log c ++ l -> part_state ps (ct_log c ++ l) t s1 -> (forall o, In o l -> obs_state ps (ct_log c ++ l) o) ->
  (forall z, (cnt z (map snd (recs l)) + cnt z (pkey ps s1) <= cnt z (wkeys ps l) + cnt z (pkey ps s))%nat) -> cinv ps c1.
Proof.
  intros [A B C D] N E P L PS OS K. constructor.
  - congruence.
  - intros t' s'. rewrite E, L, (nth_upd _ _ _ _ N). destruct (t' =? t)%nat eqn:T; [apply Nat.eqb_eq in T; subst t'; intros X; injection X as <-; exact PS|]. intros X. apply part_more, B. exact X.
  - rewrite L. intros o I. apply in_app_or in I as [I|I]; [apply obs_more, C; exact I|apply OS; exact I].
  - intros z. rewrite E, L, recs_app, map_app, cnt_app. unfold wkeys. rewrite flat_map_app. fold (wkeys ps (ct_log c)). fold (wkeys ps l). rewrite cnt_app.
    pose proof (pend_upd ps (ct_send c) t s s1 z N). specialize (D z). specialize (K z). lia.
Qed.
(** A step that changes no sender. *)
Lemma cinv_plain ps c c1 l : cinv ps c -> ct_send c1 = ct_send c -> protos c1 = protos c -> ct_log c1 = ct_log c ++ l -> (forall o, In o l -> obs_state ps (ct_log c ++ l) o) ->
  recs l = [] -> wkeys ps l = [] -> cinv ps c1.
Proof.
  intros [A B C D] E P L OS K1 K2. constructor.
  - congruence.
  - intros t' s'. rewrite E, L. intros X. apply part_more, B. exact X.
  - rewrite L. intros o I. apply in_app_or in I as [I|I]; [apply obs_more, C; exact I|apply OS; exact I].
  - intros z. rewrite E, L, recs_app, map_app, cnt_app. unfold wkeys. rewrite flat_map_app. fold (wkeys ps (ct_log c)). fold (wkeys ps l). rewrite cnt_app, K1, K2. cbn [map cnt count_occ]. specialize (D z). unfold cnt in *. cbn [count_occ]. lia.
Qed.
Lemma sess_proto c i ss : nth_error (ct_sess c) i = Some ss -> proto_at (protos c) i = cs_p ss.
Proof. intros N. unfold proto_at, protos. apply nth_error_nth. rewrite nth_error_map, N. reflexivity. Qed.
Lemma sgip_out s ca cmd seq f o s1 ca1 out : cs_p s = P_SGIP -> onTrafficSgip s ca cmd seq f o = Ok (s1, ca1, out) -> forall b, In b out -> framed b /\ says b 2147483650.
Proof.
  unfold onTrafficSgip. cbv zeta. intros P H b I. destruct (cmd =? RESP + SG_BIND).
  { apply bind_ok in H as (r & _ & H). destruct (sr_status r =? 0); [|discriminate H]. unfold nothing in H. injection H as _ _ <-. destruct I. }
  destruct (cmd =? SG_UNBIND).
  { apply bind_ok in H as (h & D & H). apply bind_ok in H as (b0 & RB & H). apply reply_ok in RB as [RB _]. unfold ClientModel.closing in H. apply bind_ok in H as (s2 & _ & H). injection H as _ _ <-.
    destruct (g_err o); [destruct I|]. destruct I as [<-|[]]. assert (L : sh_len h = 20) by (unfold Unbind_Decode in D; apply bind_ok in D as (x & _ & D); apply bind_ok in D as (y & _ & D); injection D as <-; reflexivity).
    apply shead_shape in RB as (A & B & C & G). unfold shead_len, Unbind_ToResponse in *. cbn [sh_len sh_cmd] in *. rewrite L in *. change (20 <? 20) with false in *. cbv iota in *. split; [split; [lia|congruence]|exact C]. }
  destruct (cmd =? RESP + SG_UNBIND).
  { apply bind_ok in H as (h & _ & H). unfold ClientModel.closing in H. apply bind_ok in H as (s2 & _ & H). injection H as _ _ <-. destruct I. }
  destruct (cmd =? RESP + SG_SUBMIT); [apply bind_ok in H as (r & _ & H)|]; unfold nothing in H; injection H as _ _ <-; destruct I.
Qed.
Lemma used_cinv ps c i now : cinv ps c -> cinv ps (used c i now).
Proof.
  intros H. apply (cinv_plain ps c _ [] H); try reflexivity; try (rewrite app_nil_r); try apply used_rest; [apply protos_used|intros o []].
Qed.
Lemma cinv_step pr ps c e c1 : cinv ps c -> cstep pr c e = Ok c1 -> cinv ps c1.
Proof.
  intros H E. pose proof (ci_ps _ _ H) as PS. destruct e as [q msg ops phones|t choice d now|t ok now|t now|t|i cmd seq body o|i|h d now|d now|d now]; cbn [cstep] in E.
  - destruct phones as [|p phones]; injection E as <-.
    + apply (cinv_plain ps c _ [ORet 0] H); try reflexivity. intros o [<-|[]]. exact I.
    + destruct H as [A B C D]. constructor; cbn [ct_send ct_log]; [exact PS| |exact C|].
      * intros t s N. destruct (Nat.lt_ge_cases t (length (ct_send c))) as [L|L]; [rewrite nth_error_app1 in N by exact L; apply B; exact N|].
        rewrite nth_error_app2 in N by exact L. destruct (t - length (ct_send c))%nat as [|[|?]]; try discriminate N. injection N as <-. exact I.
      * intros z. unfold pend. rewrite flat_map_app. cbn [flat_map pkey sn_ph app]. rewrite app_nil_r. apply D.
  - destruct (nth_error (ct_send c) t) as [s|] eqn:N; [|injection E as <-; exact H].
    destruct (sn_ph s) eqn:PH; try (injection E as <-; exact H). destruct (sn_todo s) as [|phone rest] eqn:TD; [injection E as <-; exact H|].
    assert (QUIET : forall c2 ph, ct_send c2 = firstn t (ct_send c) ++ [phase s rest (sn_res s) ph] ++ skipn (S t) (ct_send c) -> protos c2 = protos c -> ct_log c2 = ct_log c ++ [OPick t phone] ->
       (forall i p b k r dn, ph <> SWrote i p b k r dn) -> part_state ps (ct_log c ++ [OPick t phone]) t (phase s rest (sn_res s) ph) -> cinv ps c2).
    { intros c2 ph E1 E2 E3 NW X. apply (cinv_sender ps c c2 t s _ [OPick t phone] H N E1 E2 E3 X).
      - intros o [<-|[]]. exact I.
      - intros z. unfold pkey at 1. cbn [phase sn_ph]. destruct ph; cbn; try lia. exfalso. eapply NW. reflexivity. }
    destruct choice as [i|]; [|injection E as <-; apply (QUIET _ SNext); try reflexivity; try discriminate; try exact I].
    destruct (nth_error (ct_sess c) i) as [ss|] eqn:NS; [|injection E as <-; exact H]. destruct (HealthCheck ss); [|injection E as <-; exact H].
    destruct (cs_ac ss) as [ac|]; [|injection E as <-; exact H]. apply bind_ok in E as (parts & EP & E).
    destruct parts as [|x parts].
    + injection E as <-. apply (QUIET _ SNext); try discriminate; try exact I.
      * cbn [say ct_send]. exact (proj1 (proj2 (used_rest (put_send c t (phase s rest (sn_res s) SNext)) i now))).
      * exact (protos_used (put_send c t (phase s rest (sn_res s) SNext)) i now).
      * cbn [say ct_log]. f_equal. exact (proj2 (proj2 (used_rest (put_send c t (phase s rest (sn_res s) SNext)) i now))).
    + injection E as <-. apply (QUIET _ (SPart i phone (x :: parts) [])); try reflexivity; try discriminate.
      cbn [part_state phase sn_ph]. intros PI. rewrite <- PS, (sess_proto c i ss NS) in PI. rewrite PI in EP. apply segments_shape in EP. exact EP.
  - destruct (nth_error (ct_send c) t) as [s|] eqn:N; [|injection E as <-; exact H]. pose proof (ci_send _ _ H t s N) as PT. unfold part_state in PT.
    destruct (sn_ph s) as [|i phone [|[enc key] r] done| |] eqn:PH; try (injection E as <-; exact H).
    destruct (nth_error (ct_sess c) i) as [ss|] eqn:NS; [|injection E as <-; exact H]. apply bind_ok in E as (b & EB & E). apply reply_ok in EB as [EB _].
    destruct ok.
    + injection E as <-. apply (cinv_sender ps c _ t s (phase s (sn_todo s) (sn_res s) (SWrote i phone b key r done)) [OWrote t i b] H N); try reflexivity.
      * cbn [part_state phase sn_ph]. split; [|apply in_or_app; right; left; reflexivity]. intros PI. exact (Forall_inv_tail (PT PI)).
      * intros o [<-|[]]. cbn [obs_state]. intros PI. exact (Forall_inv (PT PI) b EB).
      * intros z. unfold pkey. rewrite PH. cbn [phase sn_ph]. cbn. lia.
    + apply bind_ok in E as (s1 & CL & E). injection E as <-. pose proof (Close_keeps _ _ CL) as KP.
      match goal with |- cinv ps (say (used ?x i now) ?l) => apply (cinv_sender ps c _ t s (phase s (sn_todo s) (sn_res s) SNext) l H N) end.
      * cbn [say ct_send]. destruct (used_rest (put_send (put_sess c i s1) t (phase s (sn_todo s) (sn_res s) SNext)) i now) as (_ & X & _). rewrite X. reflexivity.
      * unfold protos at 1. cbn [say ct_sess]. match goal with |- map cs_p (ct_sess (used ?x i now)) = _ => change (protos (used x i now) = protos c); rewrite (protos_used x i now) end. exact (protos_put c i ss s1 NS KP).
      * cbn [say ct_log]. destruct (used_rest (put_send (put_sess c i s1) t (phase s (sn_todo s) (sn_res s) SNext)) i now) as (_ & _ & X). rewrite X. reflexivity.
      * exact I.
      * intros o [<-|[]]. exact I.
      * intros z. cbn. lia.
  - destruct (nth_error (ct_send c) t) as [s|] eqn:N; [|injection E as <-; exact H]. pose proof (ci_send _ _ H t s N) as PT. unfold part_state in PT.
    destruct (sn_ph s) as [| |i phone b key r done|] eqn:PH; try (injection E as <-; exact H). destruct PT as [PT IW].
    assert (PP : match nth_error (ct_sess c) i with Some ss => cs_p ss | None => P_CMPP end = proto_at ps i).
    { rewrite <- PS. unfold proto_at, protos. destruct (nth_error (ct_sess c) i) as [ss|] eqn:NS; [symmetry; apply (sess_proto c i ss NS)|].
      symmetry. apply nth_overflow. rewrite map_length. apply nth_error_None. exact NS. }
    cbv zeta in E. rewrite PP in E.
    assert (REC : forall c2 s1, ct_send c2 = firstn t (ct_send c) ++ [s1] ++ skipn (S t) (ct_send c) -> protos c2 = protos c -> ct_log c2 = ct_log c ++ [ORec t (proto_at ps i) phone b] ->
      pkey ps s1 = [] -> part_state ps (ct_log c ++ [ORec t (proto_at ps i) phone b]) t s1 -> cinv ps c2).
    { intros c2 s1 E1 E2 E3 K X. apply (cinv_sender ps c c2 t s s1 _ H N E1 E2 E3 X).
      - intros o [<-|[]]. cbn [obs_state]. exists i. split; [apply in_or_app; left; exact IW|reflexivity].
      - intros z. rewrite K. unfold pkey. rewrite PH. cbn. lia. }
    destruct r as [|x r]; injection E as <-.
    + apply used_cinv. apply (REC _ (phase s (sn_todo s) (sn_res s ++ done ++ [length (ca_heap (ct_ca c))]) SNext)); try reflexivity.
    + apply (REC _ (phase s (sn_todo s) (sn_res s) (SPart i phone (x :: r) (done ++ [length (ca_heap (ct_ca c))])))); try reflexivity. exact PT.
  - destruct (nth_error (ct_send c) t) as [s|] eqn:N; [|injection E as <-; exact H].
    destruct (sn_ph s) eqn:PH; try (injection E as <-; exact H). destruct (sn_todo s) eqn:TD; [|injection E as <-; exact H]. injection E as <-.
    apply (cinv_sender ps c _ t s (phase s [] (sn_res s) SDone) [ORet (sn_q s)] H N); try reflexivity.
    + intros o [<-|[]]. exact I.
    + intros z. cbn. lia.
  - destruct (nth_error (ct_sess c) i) as [ss|] eqn:NS; [|injection E as <-; exact H]. apply bind_ok in E as ([[s1 ca] out] & HO & E). injection E as <-.
    pose proof (sess_proto c i ss NS) as PI. rewrite PS in PI. destruct (handler_eff _ _ _ _ _ _ _ _ _ _ HO) as [KP _].
    apply (cinv_plain ps c _ (OGotP i (cs_p ss) cmd seq body :: map (OReply i) out) H); try reflexivity.
    + exact (protos_put c i ss s1 NS KP).
    + intros x [<-|IX]; [cbn [obs_state]; congruence|]. apply in_map_iff in IX as (b & <- & IB). cbn [obs_state]. intros PG.
      assert (CP : cs_p ss = P_SGIP) by congruence. unfold c_onTraffic in HO. rewrite CP in HO. exact (sgip_out _ _ _ _ _ _ _ _ _ CP HO b IB).
    + cbn. clear. induction out as [|x out IHo]; [reflexivity|]. exact IHo.
    + cbn. clear. induction out as [|x out IHo]; [reflexivity|]. exact IHo.
  - destruct (nth_error (ct_sess c) i) as [ss|] eqn:NS; [|injection E as <-; exact H]. apply bind_ok in E as (s1 & CL & E). injection E as <-.
    apply (cinv_plain ps c _ [] H); try reflexivity; [exact (protos_put c i ss s1 NS (Close_keeps _ _ CL))|cbn; rewrite app_nil_r; reflexivity|intros o []].
  - injection E as <-. apply (cinv_plain ps c _ [] H); try reflexivity; [cbn; rewrite app_nil_r; reflexivity|intros o []].
  - injection E as <-. apply (cinv_plain ps c _ [] H); try reflexivity; [cbn; rewrite app_nil_r; reflexivity|intros o []].
  - injection E as <-. apply (cinv_plain ps c _ [] H); try reflexivity; [cbn; rewrite app_nil_r; reflexivity|intros o []].
Qed.
Lemma cinv_start l : cinv (map cs_p l) (cstart l).
Proof. constructor; cbn; [reflexivity|intros [|t] s N; discriminate N|intros o []|intros z; lia]. Qed.
Lemma cinv_run pr ps es : forall c c1, cinv ps c -> crun pr c es = Ok c1 -> cinv ps c1.
Proof. induction es as [|e es IH]; intros c c1 H E; cbn [crun] in E; [congruence|]. apply bind_ok in E as (c2 & E1 & E2). apply (IH c2); [apply (cinv_step pr ps c e c2 H E1)|exact E2]. Qed.
