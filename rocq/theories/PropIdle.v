(** * PropIdle: property C93 (a client that answers heartbeats stays connected). *)
From Verif Require Import Base UtilsModel OptionsModel SpecText CmppModel PropCmpp CmppBuildProofs SgipModel SmgpModel
  FrameModel SpecFrame SpecServer ServerModel ServerProofs PropFrame PropServer PropWindow PropResponses PropTick.

(** ** Specification *)
(** The clock does not go back. *)
Fixpoint timed (t : Z) (es : list (event * orc)) : Prop :=
  match es with [] => True | (_, o) :: r => t <= o_now o /\ timed (o_now o) r end.
(** From the opening to the first tick, and from tick to tick, at most [d]. *)
Fixpoint spaced (d t : Z) (es : list (event * orc)) : Prop :=
  match es with
  | [] => True
  | (ETick, o) :: r => o_now o <= t + d /\ spaced d (o_now o) r
  | _ :: r => spaced d t r
  end.
(** The server keeps up: at every tick the pool takes the heartbeat's goroutine, and those of
    earlier ticks have run and their packets are written.  The connection is open; it logs in
    before the force-close time is over and stays so. *)
Definition attended (pr : params) (t0 : Z) (es : list (event * orc)) : Prop :=
  forall es1 o es2 c, es = es1 ++ (ETick, o) :: es2 -> run pr (opened t0) es1 = Ok c ->
    o_acc o = true /\ (forall q, ~ In (JHeart, q) (sc_tasks c)) /\ (forall b f, ~ In (KHeart, b, f) (sc_queue c))
    /\ sc_open c = true /\ (se_stat (sc_sess c) = StatLogin \/ o_now o <= t0 + pr_force pr).
(** The client answers every heartbeat before the next tick. *)
Definition answering (pr : params) (t0 : Z) (es : list (event * orc)) : Prop :=
  forall es1 o es2, es = es1 ++ (ETick, o) :: es2 -> unanswered (timeline pr (opened t0) es1) = 0.

(** ** Proof *)
Lemma run_snoc pr es e : forall c c', run pr c (es ++ [e]) = Ok c' -> exists c1, run pr c es = Ok c1 /\ step pr c1 e = Ok c'.
Proof.
  induction es as [|x es IH]; intros c0 c' R; cbn [app run] in R; apply bind_ok in R as (c1 & R & E).
  - exists c0. split; [reflexivity|]. cbn [run] in E. congruence.
  - destruct (IH c1 c' E) as (c2 & A & B). exists c2. cbn [run]. rewrite R. auto.
Qed.
Lemma timeline_snoc pr es e : forall c c1, run pr c es = Ok c1 -> timeline pr c (es ++ [e]) = timeline pr c es ++ marks c1 e.
Proof.
  induction es as [|x es IH]; intros c c1 R; cbn [app run timeline] in *.
  - injection R as <-. destruct (step pr c e); rewrite app_nil_r; reflexivity.
  - apply bind_ok in R as (c2 & R & E). rewrite R. rewrite (IH c2 c1 E), app_assoc. reflexivity.
Qed.
Lemma timed_snoc es e o : forall t, timed t (es ++ [(e, o)]) -> timed t es /\ (forall x, In x es -> o_now (snd x) <= o_now o) /\ t <= o_now o.
Proof.
  induction es as [|[e1 o1] es IH]; intros t H; cbn [app timed] in *; [split; [exact Logic.I|]; split; [intros x []|tauto]|]. destruct H as [H1 H2]. destruct (IH _ H2) as (A & B & C).
  split; [auto|]. split; [intros x [<-|X]; [exact C|exact (B x X)]|lia].
Qed.
Lemma spaced_app d a b : forall t, spaced d t (a ++ b) -> spaced d t a.
Proof. induction a as [|[e o] a IH]; intros t H; cbn [app spaced] in *; [exact Logic.I|]. destruct e; auto. destruct H; auto. Qed.
(** The last tick, or the opening. *)
Definition last_tick (t : Z) (es : list (event * orc)) : Z := fold_left (fun t x => match fst x with ETick => o_now (snd x) | _ => t end) es t.
Lemma spaced_last d es o : forall t, spaced d t (es ++ [(ETick, o)]) -> o_now o <= last_tick t es + d.
Proof. induction es as [|[e o1] es IH]; intros t H; cbn [app spaced] in H; [cbn; tauto|]. unfold last_tick. cbn [fold_left fst snd]. destruct e; try (apply IH; exact H). apply IH. tauto. Qed.
Lemma last_tick_snoc t es x : last_tick t (es ++ [x]) = match fst x with ETick => o_now (snd x) | _ => last_tick t es end.
Proof. unfold last_tick. rewrite fold_left_app. reflexivity. Qed.
Lemma last_tick_le es o : forall t, t <= o_now o -> (forall x, In x es -> o_now (snd x) <= o_now o) -> last_tick t es <= o_now o.
Proof. induction es as [|x es IH]; intros t T H; cbn; [exact T|]. apply IH; [|intros y Y; apply H; right; exact Y]. destruct (fst x); try exact T. apply H. left. reflexivity. Qed.

(** What a step's marks are: at most one, with the step's time. *)
Lemma marks_one c e o : marks c (e, o) = [] \/ marks c (e, o) = [MHeart] \/ marks c (e, o) = [MAnswer (o_now o)] \/ marks c (e, o) = [MUse (o_now o)].
Proof.
  unfold marks. cbn [fst snd]. destruct e; auto.
  - destruct (nth_error _ _) as [[[] q]|]; auto; destruct q; auto.
  - destruct (sc_open c); auto. destruct (sc_queue c) as [|[[[] b] f] r]; cbn [kind_marks]; auto; destruct (_ =? _); auto.
Qed.
Lemma last_mono pr t0 es c : run pr (opened t0) es = Ok c -> timed t0 es -> t0 <= last_use t0 (timeline pr (opened t0) es).
Proof.
  revert c. induction es as [|[e o] es IH] using rev_ind; intros c R T; [cbn; lia|].
  apply run_snoc in R as (c1 & R & S1). apply timed_snoc in T as (T & _ & LE). rewrite (timeline_snoc pr es (e, o) _ _ R), last_app. specialize (IH c1 R T).
  destruct (marks_one c1 e o) as [->|[->|[->| ->]]]; cbn; lia.
Qed.

(** Since the last tick: the heartbeat's goroutine has not run, its packet is not written, it is
    unanswered, the connection was in use less than a minute before the tick, or is not logged in. *)
Definition pending (T t0 : Z) (l : list mark) (c : sconn) : Prop :=
  (exists q, In (JHeart, q) (sc_tasks c)) \/ (exists b f, In (KHeart, b, f) (sc_queue c)) \/ 0 < unanswered l
  \/ T <= last_use t0 l + minute \/ se_stat (sc_sess c) <> StatLogin.
Lemma in_del_other {A} (l : list A) i x y : nth_error l i = Some y -> In x l -> x <> y -> In x (del l i).
Proof.
  intros N I D. rewrite (split_nth l i y N) in I. unfold del. rewrite in_app_iff in *. cbn [In] in I. destruct I as [I|[I|I]]; [auto|congruence|auto].
Qed.
Lemma in_upd_other {A} (l : list A) i x y z : nth_error l i = Some y -> In x l -> x <> y -> In x (upd l i z).
Proof.
  intros N I D. rewrite (split_nth l i y N) in I. unfold upd. rewrite in_app_iff in *. cbn [In app] in *. rewrite ?in_app_iff in *. cbn [In] in *. intuition congruence.
Qed.
Lemma pending_use T t0 l c m : (exists t, (m = MAnswer t \/ m = MUse t) /\ T <= t) -> pending T t0 (l ++ [m]) c.
Proof. intros (t & [->| ->] & H); right; right; right; left; rewrite last_app; cbn; unfold minute; lia. Qed.
Lemma pending_task pr o i c T t0 l : pr_p pr <> P_SGIP -> clock t0 l c -> T <= o_now o -> sc_open c = true -> pending T t0 l c ->
  pending T t0 (l ++ marks c (ETask i, o)) (on_task pr o i c).
Proof.
  intros NS CK LE OP P. destruct (marks_one c (ETask i) o) as [M|[M|[M|M]]]; rewrite M.
  2: { unfold marks in M. cbn [fst snd] in M. destruct (nth_error _ _) as [[[] q]|]; try discriminate M; destruct q; discriminate M. }
  2,3: apply pending_use; exists (o_now o); auto.
  rewrite app_nil_r. destruct (nth_error (sc_tasks c) i) as [[j q]|] eqn:N; [|unfold on_task; rewrite N; exact P].
  assert (DJ : {j = JHeart} + {j <> JHeart}) by (destruct j; auto; right; discriminate). destruct DJ as [->|NJ].
  - unfold on_task. rewrite N. cbn [plain_job]. destruct CK as (_ & LU & _ & CO). specialize (CO OP). destruct (se_last (sc_sess c) + minute <? o_now o) eqn:L.
    + destruct (heart_bytes pr o NS) as (b & HB & _). rewrite HB. cbn [bind]. unfold AsyncWrite. rewrite CO. right. left. exists b, CbHeart. cbn [with_tasks with_queue sc_queue]. apply in_or_app. right. left. reflexivity.
    + right. right. right. left. apply Z.ltb_ge in L. rewrite LU in L. lia.
  - assert (SE : se_stat (sc_sess (on_task pr o i c)) = se_stat (sc_sess c)).
    { destruct (quiet j q) eqn:QQ; [rewrite (task_sess pr o i c j q N QQ); reflexivity|]. destruct q; try discriminate QQ. unfold on_task. rewrite N. destruct j; try discriminate QQ; reflexivity. }
    assert (TK : forall p, In (JHeart, p) (sc_tasks c) -> In (JHeart, p) (sc_tasks (on_task pr o i c))).
    { intros p I. assert (NE : (JHeart, p) <> (j, q)) by congruence. pose proof (in_del_other _ _ _ _ N I NE) as D. assert (U : forall z, In (JHeart, p) (upd (sc_tasks c) i z)) by (intros z; exact (in_upd_other _ _ _ _ z N I NE)).
      destruct (on_task_step pr o i c j q N); cbn [put with_tasks sc_tasks]; auto; unfold try_send, try_recv; repeat match goal with |- context [if ?b then _ else _] => destruct b end; cbn [set_chan with_chans with_tasks sc_tasks]; auto. }
    assert (QK : forall it, In it (sc_queue c) -> In it (sc_queue (on_task pr o i c))).
    { intros it I. destruct (on_task_step pr o i c j q N); cbn [put with_tasks sc_queue]; auto; try (apply in_or_app; auto); unfold try_send, try_recv; repeat match goal with |- context [if ?b then _ else _] => destruct b end; auto. }
    destruct P as [(p & P)|[(b & f & P)|[P|[P|P]]]]; unfold pending.
    + left. exists p. apply TK, P.
    + right. left. exists b, f. apply QK, P.
    + auto.
    + auto.
    + rewrite SE. auto 6.
Qed.
Lemma pending_write o c c' T t0 l : clock t0 l c -> T <= o_now o -> sc_open c = true -> on_write o c = Ok c' -> pending T t0 l c -> pending T t0 (l ++ marks c (EWrite, o)) c'.
Proof.
  intros CK LE OP E P. destruct (marks_one c EWrite o) as [M|[M|[M|M]]]; rewrite M.
  3,4: apply pending_use; exists (o_now o); auto.
  2: { right. right. left. rewrite unanswered_app. cbn. pose proof (unanswered_nonneg l). lia. }
  rewrite app_nil_r. unfold on_write in E. rewrite OP in E. destruct (sc_queue c) as [|[[kd b] f] r] eqn:Q; [injection E as <-; exact P|].
  destruct CK as (_ & _ & CP & _). assert (PD : paired (kd, b, f)) by (apply CP; rewrite Q; left; reflexivity).
  unfold marks in M. cbn [fst snd] in M. rewrite OP, Q in M.
  assert (NH : kd <> KHeart) by (intros ->; discriminate M).
  assert (X : sc_tasks c' = sc_tasks c /\ sc_queue c' = r /\ (se_stat (sc_sess c') = se_stat (sc_sess c) \/ se_stat (sc_sess c') = StatClosing)).
  { destruct kd; cbn [paired fst snd] in PD; try congruence; cbn [kind_marks] in M; try discriminate M; try (subst f; cbn [callback] in E; injection E as <-; auto; fail).
    - destruct PD as [ac ->]. cbn [callback] in E. destruct (code =? 0); [discriminate M|]. destruct ac; injection E as <-; auto.
    - subst f. cbn [callback] in E. destruct (code =? 0); [discriminate M|]. injection E as <-. auto. }
  destruct X as (X1 & X2 & X3). destruct P as [(p & P)|[(b' & f' & P)|[P|[P|P]]]]; unfold pending; rewrite X1, X2; eauto 6.
  - right. left. exists b', f'. rewrite Q in P. destruct P as [P|P]; [congruence|exact P].
  - right. right. right. right. destruct X3 as [-> | ->]; [exact P|discriminate].
Qed.
Lemma pending_recv pr o seg c c' T t0 l : on_recv pr o seg c = Ok c' -> sc_open c' = true -> pending T t0 l c -> pending T t0 l c'.
Proof.
  intros E OP P. apply on_recv_step in E.
  assert (CL : forall x, sc_open (OnClose x) = true -> False) by (intros x; unfold OnClose; destruct (sc_open x) eqn:O; cbn [negb]; [discriminate|rewrite O; discriminate]).
  destruct E as [O1|O1 F|O1 F|k rest O1 F N|k rest h a c2 O1 F Hin Hc HA]; auto; try (exfalso; exact (CL _ OP)).
  destruct a; [|exfalso; exact (CL _ OP)]. cbn [closing] in *.
  assert (X : (forall x, In x (sc_tasks c) -> In x (sc_tasks c2)) /\ sc_queue c2 = sc_queue c /\ sc_sess c2 = sc_sess c).
  { destruct HA as [|l' E D A|r E D A1 A2 A3 A4|r E D A1 A2 A3 A4|r E D A1 A2 A3 A4|j E1 E2 D A1 A2 W A3 A4]; cbn [spawn with_tasks note sc_tasks sc_queue sc_sess]; (split; [intros; try (apply in_or_app; left); assumption|auto]). }
  destruct X as (X1 & X2 & X3). unfold pending in *. cbn [with_buf sc_tasks sc_queue sc_sess]. rewrite X2, X3. destruct P as [(p & P)|P]; [left; exists p; auto|right; exact P].
Qed.
Lemma pending_tick pr o c t0 l : sc_open c = true -> o_acc o = true -> clock t0 l c -> ~ overdue t0 (pr_force pr) (o_now o) l -> pending (o_now o) t0 l (on_tick pr o c).
Proof.
  intros OP AC CK NO. unfold on_tick. rewrite OP. cbn [negb]. rewrite (tick_spares pr t0 _ c o CK NO). destruct (se_stat (sc_sess c)) eqn:ST; [right; right; right; right; rewrite ST; discriminate| |right; right; right; right; rewrite ST; discriminate].
  left. rewrite AC. assert (X : In (JHeart, PStart) (sc_tasks (spawn c JHeart))) by (cbn [spawn with_tasks sc_tasks]; apply in_or_app; right; left; reflexivity).
  exists PStart. destruct (o_dly o); [destruct (o_acc2 o)|]; auto. cbn [spawn with_tasks sc_tasks] in *. apply in_or_app. left. exact X.
Qed.
Lemma open_back pr c e c' : step pr c e = Ok c' -> sc_open c' = true -> sc_open c = true.
Proof.
  intros E OP. destruct e as [[seg|i| | |] o]; cbn [step] in E.
  - apply on_recv_step in E. destruct E; auto; congruence.
  - injection E as <-. rewrite task_open in OP. exact OP.
  - unfold on_write in E. destruct (sc_open c) eqn:O; [reflexivity|]. injection E as <-. congruence.
  - injection E as <-. unfold on_tick in OP. destruct (sc_open c) eqn:O; [reflexivity|]. cbn [negb] in OP. congruence.
  - injection E as <-. unfold OnClose in OP. destruct (sc_open c) eqn:O; [reflexivity|]. cbn [negb] in OP. congruence.
Qed.
Lemma attended_app pr t0 a b : attended pr t0 (a ++ b) -> attended pr t0 a.
Proof. intros H es1 o es2 c E. apply (H es1 o (es2 ++ b) c). rewrite E, <- app_assoc. reflexivity. Qed.
Lemma answering_app pr t0 a b : answering pr t0 (a ++ b) -> answering pr t0 a.
Proof. intros H es1 o es2 E. apply (H es1 o (es2 ++ b)). rewrite E, <- app_assoc. reflexivity. Qed.

Lemma never_overdue pr t0 d : pr_p pr <> P_SGIP -> 60 * 1000000000 + d <= pr_force pr -> forall es c, run pr (opened t0) es = Ok c ->
  timed t0 es -> spaced d t0 es -> attended pr t0 es -> answering pr t0 es ->
  (sc_open c = true -> pending (last_tick t0 es) t0 (timeline pr (opened t0) es) c)
  /\ (forall es1 o es2, es = es1 ++ (ETick, o) :: es2 -> ~ overdue t0 (pr_force pr) (o_now o) (timeline pr (opened t0) es1)).
Proof.
  intros NS FD. induction es as [|[e o] es IH] using rev_ind; intros c R T SP AT AN.
  { injection R as <-. split; [intros _; right; right; right; right; discriminate|]. intros [|] o es2 E; discriminate E. }
  apply run_snoc in R as (c1 & R & S1). pose proof (timed_snoc _ _ _ _ T) as (T1 & LE & T0).
  destruct (IH c1 R T1 (spaced_app _ _ _ _ SP) (attended_app _ _ _ _ AT) (answering_app _ _ _ _ AN)) as [P NO]. clear IH.
  pose proof (clock_run pr es _ _ t0 [] (clock_opened t0) R) as CK. cbn [app] in CK.
  assert (NOW : e = ETick -> ~ overdue t0 (pr_force pr) (o_now o) (timeline pr (opened t0) es)).
  { intros ->. destruct (AT es o [] c1 eq_refl R) as (_ & NT & NQ & OP & LG). specialize (P OP). pose proof (AN es o [] eq_refl) as UA. pose proof (spaced_last d es o t0 SP) as SL.
    intros [V|V]; [|lia]. pose proof (last_mono pr t0 es c1 R T1) as LM. destruct P as [(q & P)|[(b & f & P)|[P|[P|P]]]].
    - exact (NT q P).
    - exact (NQ b f P).
    - lia.
    - unfold minute in P. lia.
    - destruct LG as [LG|LG]; [contradiction|lia]. }
  split.
  - intros OP. assert (OP1 := open_back _ _ _ _ S1 OP). specialize (P OP1). rewrite (timeline_snoc pr es (e, o) _ _ R), last_tick_snoc. cbn [fst snd].
    assert (LT : last_tick t0 es <= o_now o) by (apply last_tick_le; [exact T0|exact LE]).
    destruct e as [seg|i| | |]; cbn [step] in S1.
    + unfold marks. cbn [fst]. rewrite app_nil_r. exact (pending_recv pr o seg c1 c _ _ _ S1 OP P).
    + injection S1 as <-. apply pending_task; auto.
    + eapply pending_write; eauto.
    + unfold marks. cbn [fst]. rewrite app_nil_r. injection S1 as <-. apply pending_tick; auto. destruct (AT es o [] c1 eq_refl R) as (AC & _). exact AC.
    + injection S1 as <-. unfold OnClose in OP. rewrite OP1 in OP. discriminate OP.
  - intros es1 o1 es2 E. destruct es2 as [|y es2 _] using rev_ind.
    + apply app_inj_tail in E as [-> E]. injection E as -> ->. apply NOW. reflexivity.
    + rewrite app_comm_cons, app_assoc in E. apply app_inj_tail in E as [E _]. exact (NO es1 o1 es2 E).
Qed.

(** A CMPP or SMGP client that answers heartbeats before the next tick is never sent a terminate
    request, however long it is idle, if the force-close time is at least a minute and a tick. *)
Theorem C93_kept_partial : forall pr t0 d es c, pr_p pr <> P_SGIP -> 60 * 1000000000 + d <= pr_force pr -> run pr (opened t0) es = Ok c ->
  timed t0 es -> spaced d t0 es -> attended pr t0 es -> answering pr t0 es ->
  (forall b, ~ In (OOut KForce b) (sc_log c)) /\ (forall b f, ~ In (KForce, b, f) (sc_queue c)) /\ (forall q, ~ In (JForce, q) (sc_tasks c)).
Proof. intros pr t0 d es c NS FD R T SP AT AN. apply (C56_spared pr t0 es c R). exact (proj2 (never_overdue pr t0 d NS FD es c R T SP AT AN)). Qed.

From Verif Require Import ClientModel.
(** The client answers a heartbeat with the packet that the server counts as the answer: read by a
    logged-in connection with a free place in its window, it ends the waiting and counts as use. *)
Definition heart_cmd (p : proto) : Z := match p with P_CMPP => 8 | _ => 4 end.
Definition answer_body (p : proto) : bytes := match p with P_CMPP => [0] | _ => [] end.
Lemma client_answers gbd s ca seq o : cs_p s <> P_SGIP -> cs_con s = true -> g_err o = false ->
  c_onTraffic gbd s ca (heart_cmd (cs_p s)) seq [] o = Ok (touch s (g_now o), ca, [wire_of (2147483648 + heart_cmd (cs_p s)) seq (answer_body (cs_p s))]).
Proof.
  intros NS CO GE. unfold c_onTraffic. destruct (cs_p s) eqn:P; [| contradiction|].
  - unfold onTrafficCmpp. change (heart_cmd P_CMPP =? RESP + CONNECT) with false. change (heart_cmd P_CMPP =? ACTIVE_TEST) with true. cbv iota. unfold ActiveTest_Decode, ActiveTest_ToResponse, ActiveTestRsp_Encode. cbn [bind h_seq].
    destruct (head_run (CHead 13 (RESP + ACTIVE_TEST) seq)) as (f & A & _ & _ & B); [cbn; lia|]. rewrite A. cbn [bind]. unfold answer_or_close, reply_with.
    assert (S1 : set_at f 12 0 = Ok (wire_of (2147483648 + heart_cmd P_CMPP) seq (answer_body P_CMPP))) by (rewrite B; vm_compute; reflexivity).
    rewrite S1. cbn [bind touch cs_con]. rewrite CO. cbn [bind]. rewrite GE. reflexivity.
  - unfold onTrafficSmgp. change (heart_cmd P_SMGP =? RESP + SM_LOGIN) with false. change (heart_cmd P_SMGP =? SM_ACTIVE_TEST) with true. cbv iota. unfold sm_bare_Decode, sm_bare_ToResponse. cbn [bind h_seq h_len].
    destruct (head_run (CHead 12 (RESP + SM_ACTIVE_TEST) seq)) as (f & A & _ & _ & B); [cbn; lia|]. unfold answer_or_close, reply_with. change (smhead_Encode ?x) with (head_Encode x). rewrite A. cbn [bind touch cs_con]. rewrite CO. cbn [bind]. rewrite GE, B. reflexivity.
Qed.
Lemma server_counts pr t0 es c seq oa ob oc g : pr_p pr <> P_SGIP -> run pr (opened t0) es = Ok c -> calm pr (opened t0) es -> sc_open c = true ->
  se_stat (sc_sess c) = StatLogin -> sc_buf c = [] -> 0 <= seq < 2 ^ 32 -> o_acc oa = true -> se_win (sc_sess c) = Some g -> ch_len (get_chan c g) < ch_cap (get_chan c g) ->
  let es' := [(ERecv (wire_of (2147483648 + heart_cmd (pr_p pr)) seq (answer_body (pr_p pr))), oa); (ETask (length (sc_tasks c)), ob); (ETask (length (sc_tasks c)), oc)] in
  exists c', run pr c es' = Ok c' /\ timeline pr c es' = [MAnswer (o_now oc)] /\ sc_open c' = true /\ sc_queue c' = sc_queue c.
Proof.
  intros NS R C O ST BF SQ AC GW FREE. pose proof (win_run pr es _ _ (win_opened t0) R O C) as (CO & W). rewrite GW in W. destruct W as (W1 & W2 & W3 & _).
  set (k := Packet (2147483648 + heart_cmd (pr_p pr)) seq (answer_body (pr_p pr))).
  assert (L : legal (pr_p pr) k).
  { split; [|split; [exact SQ|]]; unfold k; cbn [pk_cmd pk_body]; destruct (pr_p pr); try contradiction; cbn; try (split; [repeat constructor; lia|lia]); repeat first [left; reflexivity|right]. }
  assert (D : DecodeAndCheckHeader (pr_p pr) (pr_drain pr) (sc_buf c ++ wire k) = Ok (FPass k [])).
  { rewrite BF. cbn [app]. pose proof (dch_full (pr_p pr) (pr_drain pr) k [] L) as X. rewrite app_nil_r in X. rewrite X. unfold body_of, rest_of, k. cbn [pk_cmd pk_seq pk_body]. destruct (answer_body (pr_p pr)), (pr_drain pr); reflexivity. }
  cbv zeta. change (wire_of _ seq _) with (wire k).
  set (c2 := spawn (note (note c (OGot k)) (OServe k false)) (JActiveResp k)).
  assert (A : act pr oa HActiveResp k c = Ok (ANone, c2)).
  { unfold act. cbv zeta. change (sc_sess (note c (OGot k))) with (sc_sess c). unfold sessionCheck. rewrite ST. cbn [negb].
    assert (DO : decode_other (pr_p pr) HActiveResp k = Ok (JActiveResp k)) by (destruct (pr_p pr); [reflexivity|contradiction|reflexivity]). rewrite DO, W3, AC. reflexivity. }
  assert (HC : handler_cmd (pr_p pr) HActiveResp = pk_cmd k) by (unfold k; destruct (pr_p pr); [reflexivity|contradiction|reflexivity]).
  assert (HI : In HActiveResp (handlers (pr_p pr))) by (destruct (pr_p pr); cbn; auto; contradiction).
  assert (CH : forall hs, NoDup (map (handler_cmd (pr_p pr)) hs) -> In HActiveResp hs -> ExecuteChain (pr_p pr) (act pr oa) hs k c = Ok (ANone, c2)).
  { induction hs as [|h0 hs IH]; [intros _ []|]; intros ND [->|Hi].
    - cbn [ExecuteChain]. unfold handler. rewrite HC, Z.eqb_refl. cbn [negb]. rewrite A. reflexivity.
    - cbn [ExecuteChain]. unfold handler. cbn [map] in ND. inversion ND as [|? ? N1 N2]; subst.
      replace (handler_cmd (pr_p pr) h0 =? pk_cmd k) with false.
      2:{ symmetry. apply Z.eqb_neq. intros E. apply N1. rewrite E, <- HC. apply in_map. exact Hi. }
      cbn [negb bind]. apply IH; assumption. }
  assert (S1 : step pr c (ERecv (wire k), oa) = Ok (with_buf c2 [])).
  { cbn [step]. unfold on_recv. rewrite O. cbn [negb]. unfold OnTraffic. rewrite D. cbn [bind]. rewrite CH; [reflexivity|apply handlers_nodup|exact HI]. }
  assert (N2 : nth_error (sc_tasks (with_buf c2 [])) (length (sc_tasks c)) = Some (JActiveResp k, PStart)).
  { unfold c2. cbn [with_buf spawn with_tasks note sc_tasks]. rewrite nth_error_app2, Nat.sub_diag by lia. reflexivity. }
  set (c3 := on_task pr ob (length (sc_tasks c)) (with_buf c2 [])).
  assert (T3 : c3 = set_chan (with_tasks (with_buf c2 []) (upd (sc_tasks (with_buf c2 [])) (length (sc_tasks c)) (JActiveResp k, PWork))) g (plus (get_chan c g) 1)).
  { unfold c3, on_task. rewrite N2. cbn [plain_job]. change (se_win (sc_sess (with_buf c2 []))) with (se_win (sc_sess c)). rewrite GW. unfold try_send. change (get_chan (with_buf c2 []) g) with (get_chan c g).
    rewrite W2. replace (_ <? _) with true by lia. reflexivity. }
  assert (N3 : nth_error (sc_tasks c3) (length (sc_tasks c)) = Some (JActiveResp k, PWork)).
  { rewrite T3. unfold c2. cbn [set_chan with_chans with_buf spawn with_tasks note sc_tasks]. unfold upd. rewrite nth_error_app2 by (rewrite firstn_length; lia).
    replace (length (sc_tasks c) - _)%nat with 0%nat; [reflexivity|]. rewrite firstn_length, app_length. cbn [length]. lia. }
  exists (on_task pr oc (length (sc_tasks c)) c3). cbn [run]. rewrite S1. cbn [bind step]. fold c3. split; [reflexivity|]. split; [|split].
  - cbn [timeline]. rewrite S1. unfold marks at 1. cbn [fst app]. unfold marks at 1. cbn [fst]. rewrite N2. cbn [app step]. fold c3. unfold marks. cbn [fst snd]. rewrite N3. reflexivity.
  - rewrite !task_open. unfold c3. rewrite task_open. exact O.
  - unfold on_task. rewrite N3. cbn [plain_job work with_tasks with_sess sc_queue]. rewrite T3. reflexivity.
Qed.
Theorem C93_answer : forall pr gbd s ca seq o t0 es c oa ob oc g, pr_p pr <> P_SGIP -> cs_p s = pr_p pr -> cs_con s = true -> g_err o = false -> 0 <= seq < 2 ^ 32 ->
  run pr (opened t0) es = Ok c -> calm pr (opened t0) es -> sc_open c = true -> se_stat (sc_sess c) = StatLogin -> sc_buf c = [] ->
  o_acc oa = true -> se_win (sc_sess c) = Some g -> ch_len (get_chan c g) < ch_cap (get_chan c g) ->
  heartbeat_packet (pr_p pr) (wire_of (heart_cmd (pr_p pr)) seq []) /\
  exists b, c_onTraffic gbd s ca (heart_cmd (pr_p pr)) seq [] o = Ok (touch s (g_now o), ca, [b]) /\
  let es' := [(ERecv b, oa); (ETask (length (sc_tasks c)), ob); (ETask (length (sc_tasks c)), oc)] in
  exists c', run pr c es' = Ok c' /\ sc_open c' = true
    /\ unanswered (timeline pr (opened t0) (es ++ es')) = 0 /\ last_use t0 (timeline pr (opened t0) (es ++ es')) = o_now oc.
Proof.
  intros pr gbd s ca seq o t0 es c oa ob oc g NS EP CO GE SQ R C O ST BF AC GW FREE. split.
  { destruct (pr_p pr); [|contradiction|]; exists seq; reflexivity. }
  eexists. split; [rewrite <- EP; apply client_answers; [rewrite EP; exact NS|exact CO|exact GE]|]. rewrite EP.
  destruct (server_counts pr t0 es c seq oa ob oc g NS R C O ST BF SQ AC GW FREE) as (c' & A & B & D & _). cbv zeta. exists c'. split; [exact A|]. split; [exact D|].
  assert (TL : forall fs c0, run pr c0 es = Ok c -> timeline pr c0 (es ++ fs) = timeline pr c0 es ++ timeline pr c fs).
  { clear. induction es as [|e es IH]; intros fs c0 R; cbn [run app timeline] in *; [injection R as <-; reflexivity|]. apply bind_ok in R as (c1 & E & R). rewrite E, (IH fs c1 R), app_assoc. reflexivity. }
  rewrite (TL _ _ R), B, unanswered_app, last_app. split; reflexivity.
Qed.

(** SGIP has no heartbeat: none is ever written, and a client that only waits is sent the terminate
    request at the first tick after the force-close time. *)
Lemma sgip_silent pr es : pr_p pr = P_SGIP -> forall c c', run pr c es = Ok c' -> (forall b f, ~ In (KHeart, b, f) (sc_queue c)) -> (forall b, ~ In (OOut KHeart b) (sc_log c)) ->
  (forall b f, ~ In (KHeart, b, f) (sc_queue c')) /\ (forall b, ~ In (OOut KHeart b) (sc_log c')) /\ ~ In MHeart (timeline pr c es).
Proof.
  intros SG. induction es as [|[e o] es IH]; intros c c' R Q L; cbn [run timeline] in *; [injection R as <-; auto|].
  apply bind_ok in R as (c1 & S1 & R). rewrite S1.
  assert (X : (forall b f, ~ In (KHeart, b, f) (sc_queue c1)) /\ (forall b, ~ In (OOut KHeart b) (sc_log c1)) /\ ~ In MHeart (marks c (e, o))).
  { assert (CL : forall x, (forall b f, ~ In (KHeart, b, f) (sc_queue x)) /\ (forall b, ~ In (OOut KHeart b) (sc_log x)) -> (forall b f, ~ In (KHeart, b, f) (sc_queue (OnClose x))) /\ (forall b, ~ In (OOut KHeart b) (sc_log (OnClose x)))).
    { intros x [X1 X2]. unfold OnClose. destruct (negb _); auto. cbn [note sc_log sc_queue closeResource with_chans with_sess]. split; [intros b f []|]. intros b Hb. apply in_app_or in Hb as [Hb|[Hb|[]]]; [exact (X2 b Hb)|discriminate]. }
    destruct e as [seg|i| | |]; cbn [step] in S1.
    - assert (Y : (forall b f, ~ In (KHeart, b, f) (sc_queue c1)) /\ (forall b, ~ In (OOut KHeart b) (sc_log c1))); [|destruct Y; repeat split; auto; intros []].
      apply on_recv_step in S1. destruct S1 as [O1|O1 F|O1 F|k rest O1 F N|k rest h a c2 O1 F Hin Hc HA]; auto.
      assert (Z : (forall b f, ~ In (KHeart, b, f) (sc_queue (with_buf c2 rest))) /\ (forall b, ~ In (OOut KHeart b) (sc_log (with_buf c2 rest)))).
      { destruct HA; cbn [with_buf spawn with_tasks note sc_log sc_queue]; (split; [exact Q|]); intros b Hb; repeat (apply in_app_or in Hb as [Hb|[Hb|[]]]; [|try discriminate Hb]); exact (L b Hb). }
      destruct a; [exact Z|apply CL; exact Z].
    - injection S1 as <-. rewrite task_log. split; [|split; [exact L|]].
      + destruct (nth_error (sc_tasks c) i) as [[j q]|] eqn:N; [|unfold on_task; rewrite N; auto].
        assert (NI : forall it b f, item_of pr o j it -> it <> (KHeart, b, f)) by (intros it b f I1 ->; inversion I1; subst; match goal with H : heart_packet _ _ = _ |- _ => rewrite SG in H; discriminate H end).
        assert (QI : forall its, (forall it, In it its -> item_of pr o j it) -> forall b f, ~ In (KHeart, b, f) (sc_queue c ++ its)).
        { intros its HI b f Hi. apply in_app_or in Hi as [Hi|Hi]; [eapply Q; eauto|]. apply (NI _ b f (HI _ Hi)). reflexivity. }
        destruct (on_task_step pr o i c j q N) as [W F|Ej|it W I1 C1|g W Q1|W Q1 S|W Q1|k r it code a Ej Eq I1 C1 Ec Ek Ea|s' its w W Eq Nj SS It Wi|its a k Eq W It|g W Q1|W Q1];
        cbn [put with_tasks sc_queue]; auto; try (apply QI; intros y [<-|[]]; exact I1).
        * unfold try_send. destruct (ch_closed _); [auto|]. destruct (_ <? _); cbn; auto.
        * apply QI. destruct It as [->|(b & -> & I1 & _)]; [intros y []|]. intros y [<-|[]]. exact I1.
        * apply QI. destruct It as [->|(b & -> & I1 & _)]; [intros y []|]. intros y [<-|[]]. exact I1.
        * unfold try_recv. destruct (_ <? _); [cbn; auto|]. destruct (ch_closed _); cbn; auto.
      + unfold marks. cbn [fst snd]. destruct (nth_error _ _) as [[[] q]|]; try (intros []; fail); destruct q; try (intros []; fail); intros [HH|[]]; discriminate HH.
    - unfold marks. cbn [fst snd]. unfold on_write in S1. destruct (sc_open c); [|injection S1 as <-; repeat split; auto; intros []].
      destruct (sc_queue c) as [|[[kd b] f] r] eqn:QQ; [injection S1 as <-; rewrite QQ; repeat split; auto; intros []|].
      assert (NK : kd <> KHeart) by (intros ->; eapply Q; left; reflexivity).
      assert (L1 : forall b', ~ In (OOut KHeart b') (sc_log c ++ [OOut kd b])) by (intros b' Hb; apply in_app_or in Hb as [Hb|[Hb|[]]]; [exact (L b' Hb)|congruence]).
      assert (Q1 : forall b f, ~ In (KHeart, b, f) r) by (intros b' f' Hq; eapply Q; right; exact Hq).
      assert (M1 : ~ In MHeart (kind_marks kd (o_now o))) by (destruct kd; cbn [kind_marks]; try congruence; try destruct (_ =? _); intros HM; cbn in HM; intuition discriminate).
      destruct f; cbn [callback] in S1; try (injection S1 as <-; cbn; auto; fail).
      + destruct ac as [ac|]; destruct (code =? 0); try discriminate S1; try (injection S1 as <-; cbn; auto; fail).
        apply bind_ok in S1 as (c2 & S1 & E1). unfold completeLogin in S1. destruct (_ <? 0); [discriminate|]. injection S1 as <-. injection E1 as <-.
        cbn [note with_chans with_sess closeResource sc_log sc_queue with_queue]. split; [auto|]. split; [|exact M1]. intros b' Hb. apply in_app_or in Hb as [Hb|[Hb|[]]]; [exact (L1 b' Hb)|discriminate].
      + destruct (code =? 0); injection S1 as <-; cbn; auto.
    - injection S1 as <-. split; [|split; [|intros []]]; unfold on_tick; destruct (negb _); auto; destruct (_ || _); try destruct (o_acc o); auto; destruct (se_stat _); auto; destruct (o_dly o); try destruct (o_acc2 o); auto.
    - injection S1 as <-. destruct (CL c (conj Q L)) as [Y1 Y2]. split; [exact Y1|]. split; [exact Y2|]. intros []. }
  destruct X as (X1 & X2 & X3). destruct (IH c1 c' R X1 X2) as (Y1 & Y2 & Y3). split; [exact Y1|]. split; [exact Y2|]. intros H. apply in_app_or in H as [H|H]; auto.
Qed.
Theorem C93_refuted_sgip : forall pr t0 es c o o1, pr_p pr = P_SGIP -> run pr (opened t0) es = Ok c -> sc_open c = true ->
  last_use t0 (timeline pr (opened t0) es) + pr_force pr < o_now o -> o_acc o = true ->
  (forall b, ~ In (OOut KHeart b) (sc_log c)) /\
  exists b c2, run pr c [(ETick, o); (ETask (length (sc_tasks c)), o1)] = Ok c2 /\ terminate_packet P_SGIP b /\ sc_queue c2 = sc_queue c ++ [(KForce, b, CbForce)].
Proof.
  intros pr t0 es c o o1 SG R O V AC. destruct (sgip_silent pr es SG _ _ R) as (_ & A & B); [intros b f []|intros b []|]. split; [exact A|].
  assert (U : unanswered (timeline pr (opened t0) es) = 0).
  { clear -B. induction (timeline pr (opened t0) es) as [|m l IH] using rev_ind; [reflexivity|]. rewrite unanswered_app, IH by (intros H; apply B; apply in_or_app; auto). destruct m; [exfalso; apply B; apply in_or_app; right; left; reflexivity|reflexivity|reflexivity]. }
  destruct (C56_terminated_partial pr t0 es c o o1 R O) as (b & c2 & E & T & Q & _); [lia|left; exact V|exact AC|]. exists b, c2. rewrite SG in T. auto.
Qed.

Lemma run_join pr es f : forall c0 c, run pr c0 es = Ok c -> run pr c0 (es ++ f) = run pr c f.
Proof. induction es as [|e es IH]; intros c0 c R; cbn [run app] in *; [injection R as <-; reflexivity|]. apply bind_ok in R as (c1 & A & R). rewrite A. cbn [bind]. exact (IH _ _ R). Qed.
Lemma timeline_join pr es f : forall c0 c, run pr c0 es = Ok c -> timeline pr c0 (es ++ f) = timeline pr c0 es ++ timeline pr c f.
Proof. induction es as [|e es IH]; intros c0 c R; cbn [run app timeline] in *; [injection R as <-; reflexivity|]. apply bind_ok in R as (c1 & A & R). rewrite A, (IH _ _ R), app_assoc. reflexivity. Qed.

(** With a force-close time shorter than a minute and a tick, every logged-in connection can be sent the
    terminate request without having been sent a heartbeat. *)
Theorem C93_refuted_short : forall pr t0 es c d, run pr (opened t0) es = Ok c -> sc_open c = true -> se_stat (sc_sess c) = StatLogin ->
  unanswered (timeline pr (opened t0) es) = 0 -> 0 < d -> 0 <= pr_force pr < 60 * 1000000000 + d ->
  exists o1 o2 c', last_use t0 (timeline pr (opened t0) es) <= o_now o1 /\ o_now o2 = o_now o1 + d
    /\ run pr c [(ETick, o1); (ETask (length (sc_tasks c)), o1); (ETick, o2); (ETask (length (sc_tasks c)), o2)] = Ok c'
    /\ exists b, terminate_packet (pr_p pr) b /\ sc_queue c' = sc_queue c ++ [(KForce, b, CbForce)].
Proof.
  intros pr t0 es c d R O ST U D0 F. set (u := last_use t0 (timeline pr (opened t0) es)) in *. set (m := Z.max 0 (pr_force pr - d + 1)).
  assert (M : 0 <= m <= 60 * 1000000000 /\ m <= pr_force pr) by (unfold m; lia).
  exists (at_time (u + m)), (at_time (u + m + d)).
  destruct (C56_heartbeat pr t0 es c (at_time (u + m)) (at_time (u + m)) R O ST) as (c2 & E & _ & SS & Q); [unfold overdue; fold u; cbn [at_time o_now]; lia|reflexivity|].
  fold u in Q. cbn [at_time o_now] in Q. replace (u + 60 * 1000000000 <? u + m) with false in Q by lia. cbn [andb] in Q.
  set (f := [(ETick, at_time (u + m)); (ETask (length (sc_tasks c)), at_time (u + m))]) in *.
  assert (RA : run pr (opened t0) (es ++ f) = Ok c2).
  { rewrite (run_join pr es f _ _ R). exact E. }
  assert (TT : sc_tasks c2 = sc_tasks c /\ sc_open c2 = true /\ timeline pr c f = []).
  { pose proof (clock_run pr es _ _ t0 [] (clock_opened t0) R) as CK. cbn [app] in CK. assert (NO : ~ overdue t0 (pr_force pr) (o_now (at_time (u + m))) (timeline pr (opened t0) es)) by (unfold overdue; fold u; cbn [at_time o_now]; lia).
    assert (TK : on_tick pr (at_time (u + m)) c = spawn c JHeart) by (unfold on_tick; rewrite O; cbn [negb]; rewrite (tick_spares pr t0 _ c _ CK NO), ST; reflexivity).
    unfold f in *. cbn [run step bind timeline] in *. rewrite TK in *. injection E as <-.
    assert (N : nth_error (sc_tasks (spawn c JHeart)) (length (sc_tasks c)) = Some (JHeart, PStart)) by (cbn [spawn with_tasks sc_tasks]; rewrite nth_error_app2, Nat.sub_diag by lia; reflexivity).
    split; [|split].
    - unfold on_task. rewrite N. cbn [plain_job]. change (sc_sess (spawn c JHeart)) with (sc_sess c). destruct CK as (_ & LU & _). rewrite LU. fold u. cbn [at_time o_now]. change minute with (60 * 1000000000). replace (_ <? _) with false by lia.
      cbn [with_tasks sc_tasks spawn]. unfold del. rewrite firstn_app, Nat.sub_diag, firstn_O, app_nil_r, firstn_all, skipn_all2 by (rewrite app_length; cbn; lia). apply app_nil_r.
    - rewrite task_open. exact O.
    - unfold marks. cbn [fst app]. rewrite N. reflexivity. }
  destruct TT as (T1 & T2 & T3).
  assert (TL : timeline pr (opened t0) (es ++ f) = timeline pr (opened t0) es).
  { rewrite (timeline_join pr es f _ _ R), T3, app_nil_r. reflexivity. }
  destruct (C56_terminated_partial pr t0 (es ++ f) c2 (at_time (u + m + d)) (at_time (u + m + d)) RA T2) as (b & c3 & E3 & TP & Q3 & _); [rewrite TL; lia|rewrite TL; left; fold u; cbn [at_time o_now]; unfold m; lia|reflexivity|].
  exists c3. split; [cbn [at_time o_now]; lia|]. split; [cbn [at_time o_now]; lia|]. split.
  - change (run pr c (f ++ [(ETick, at_time (u + m + d)); (ETask (length (sc_tasks c)), at_time (u + m + d))]) = Ok c3). unfold f. cbn [app]. unfold f in E. cbn [run] in E |- *. apply bind_ok in E as (x1 & A1 & E). rewrite A1. cbn [bind]. apply bind_ok in E as (x2 & A2 & E). injection E as ->. rewrite A2. cbn [bind]. rewrite <- T1. exact E3.
  - exists b. split; [exact TP|]. rewrite Q3, Q. reflexivity.
Qed.

(** ** Cases *)
(** A checker for the hypotheses of C93_kept_partial, and its soundness. *)
Definition no_heart (c : sconn) : bool := forallb (fun t => match fst t with JHeart => false | _ => true end) (sc_tasks c) && forallb (fun it => match fst (fst it) with KHeart => false | _ => true end) (sc_queue c).
Definition logged (c : sconn) : bool := match se_stat (sc_sess c) with StatLogin => true | _ => false end.
Fixpoint walk (pr : params) (t0 : Z) (c : sconn) (l : list mark) (es : list (event * orc)) : bool :=
  match es with
  | [] => true
  | (e, o) :: r =>
      match e with
      | ETick => o_acc o && no_heart c && sc_open c && (logged c || (o_now o <=? t0 + pr_force pr)) && (unanswered l =? 0)
      | _ => true
      end && match step pr c (e, o) with Ok c' => walk pr t0 c' (l ++ marks c (e, o)) r | _ => false end
  end.
Lemma walk_sound pr t0 : forall es c l, walk pr t0 c l es = true -> forall es1 o es2, es = es1 ++ (ETick, o) :: es2 ->
  unanswered (l ++ timeline pr c es1) = 0 /\ forall c1, run pr c es1 = Ok c1 ->
    o_acc o = true /\ (forall q, ~ In (JHeart, q) (sc_tasks c1)) /\ (forall b f, ~ In (KHeart, b, f) (sc_queue c1)) /\ sc_open c1 = true /\ (se_stat (sc_sess c1) = StatLogin \/ o_now o <= t0 + pr_force pr).
Proof.
  induction es as [|[e o0] es IH]; intros c l W es1 o es2 E; [destruct es1; discriminate E|]. cbn [walk] in W. apply andb_prop in W as [W1 W2].
  destruct es1 as [|x es1]; cbn [app] in E.
  - injection E as -> -> ->. apply andb_prop in W1 as [W1 U]. apply andb_prop in W1 as [W1 LG]. apply andb_prop in W1 as [W1 OP]. apply andb_prop in W1 as [AC NH]. unfold no_heart in NH. apply andb_prop in NH as [N1 N2].
    split; [cbn [timeline]; rewrite app_nil_r; lia|]. intros c1 R. cbn [run] in R. injection R as <-.
    split; [exact AC|]. split; [|split; [|split; [exact OP|]]].
    + intros q Hq. rewrite forallb_forall in N1. specialize (N1 _ Hq). discriminate N1.
    + intros b f Hq. rewrite forallb_forall in N2. specialize (N2 _ Hq). discriminate N2.
    + apply orb_prop in LG as [LG|LG]; [left; unfold logged in LG; destruct (se_stat (sc_sess c)); congruence|right; lia].
  - injection E as <- E. destruct (step pr c (e, o0)) as [c2| |] eqn:S1; try discriminate W2. destruct (IH _ _ W2 es1 o es2 E) as [A B].
    split; [cbn [timeline]; rewrite S1, app_assoc; exact A|]. intros c1 R. cbn [run] in R. rewrite S1 in R. cbn [bind] in R. exact (B c1 R).
Qed.
Lemma walk_kept pr t0 es : walk pr t0 (opened t0) [] es = true -> attended pr t0 es /\ answering pr t0 es.
Proof.
  intros W. split.
  - intros es1 o es2 c E R. exact (proj2 (walk_sound pr t0 es _ _ W es1 o es2 E) c R).
  - intros es1 o es2 E. exact (proj1 (walk_sound pr t0 es _ _ W es1 o es2 E)).
Qed.
(** A CMPP client that logs in and from then on only answers the heartbeat of every tick, 25 ticks 100 s
    apart: two and a half times the force-close time of 1000 s. *)
Definition round (k : nat) : list (event * orc) :=
  let t := 100000000000 * Z.of_nat (S k) in
  beat t ++ map (fun e => (e, at_time (t + 1000000000))) [ERecv answer_demo; ETask 0; ETask 0; ETask 0].
Definition es_idle : list (event * orc) := firstn 3 es_demo ++ flat_map round (seq 0 25).
Fixpoint timed_b (t : Z) (es : list (event * orc)) : bool := match es with [] => true | (_, o) :: r => (t <=? o_now o) && timed_b (o_now o) r end.
Fixpoint spaced_b (d t : Z) (es : list (event * orc)) : bool :=
  match es with [] => true | (ETick, o) :: r => (o_now o <=? t + d) && spaced_b d (o_now o) r | _ :: r => spaced_b d t r end.
Lemma timed_b_sound es : forall t, timed_b t es = true -> timed t es.
Proof. induction es as [|[e o] es IH]; intros t H; cbn in *; [exact Logic.I|]. apply andb_prop in H as [H1 H2]. split; [lia|auto]. Qed.
Lemma spaced_b_sound d es : forall t, spaced_b d t es = true -> spaced d t es.
Proof. induction es as [|[e o] es IH]; intros t H; cbn in *; [exact Logic.I|]. destruct e; auto. apply andb_prop in H as [H1 H2]. split; [lia|auto]. Qed.
Example C93_kept_case : pr_p pr_demo <> P_SGIP /\ 60 * 1000000000 + 100000000000 <= pr_force pr_demo /\ timed 0 es_idle /\ spaced 100000000000 0 es_idle /\ attended pr_demo 0 es_idle /\ answering pr_demo 0 es_idle /\
  match run pr_demo (opened 0) es_idle with Ok c => sc_open c && logged c && (length (filter (fun x => match x with OOut KHeart _ => true | _ => false end) (sc_log c)) =? 25)%nat | _ => false end = true.
Proof.
  split; [discriminate|]. split; [cbn; lia|]. split; [apply timed_b_sound; vm_compute; reflexivity|]. split; [apply spaced_b_sound; vm_compute; reflexivity|].
  assert (W : walk pr_demo 0 (opened 0) [] es_idle = true) by (vm_compute; reflexivity). destruct (walk_kept _ _ _ W) as [A B]. split; [exact A|]. split; [exact B|]. vm_compute. reflexivity.
Qed.
(** The state between a heartbeat and its answer meets the hypotheses of C93_answer. *)
Definition es_asked : list (event * orc) := firstn 3 es_demo ++ beat 100000000000.
Example C93_answer_case : match run pr_demo (opened 0) es_asked with
  | Ok c => sc_open c && logged c && (unanswered (timeline pr_demo (opened 0) es_asked) =? 1) && match sc_buf c with [] => true | _ => false end
      && match se_win (sc_sess c) with Some g => ch_len (get_chan c g) <? ch_cap (get_chan c g) | None => false end
  | _ => false end = true /\ answer_demo = wire_of (2147483648 + heart_cmd P_CMPP) 1 (answer_body P_CMPP).
Proof. split; vm_compute; reflexivity. Qed.
(** Logged in, with a force-close time of 70 s: ticks at 31 s and 71 s send no heartbeat and then the
    terminate request. *)
Definition pr_short : params := Params P_CMPP true md5_demo (fun b => Some b) (fun _ => find_demo) true 70000000000.
Example C93_refuted_short_case : match run pr_short (opened 0) (firstn 3 es_demo ++ beat 31000000000 ++ beat 71000000000) with
  | Ok c => Some (shape (sc_log c), map (fun x => match x with OOut KForce _ => true | _ => false end) (sc_log c)) | _ => None end = Some ([1; 4; 3; 6], [false; false; false; true]) /\
  match run pr_short (opened 0) (firstn 3 es_demo) with Ok c => sc_open c && logged c && (unanswered (timeline pr_short (opened 0) (firstn 3 es_demo)) =? 0) | _ => false end = true /\ pr_force pr_short < 60 * 1000000000 + 40000000000.
Proof. split; [vm_compute; reflexivity|]. split; [vm_compute; reflexivity|cbn; lia]. Qed.
(** SGIP: a connection that has just been opened, and the tick after 1001 s. *)
Definition pr_sgip : params := Params P_SGIP true md5_demo (fun b => Some b) (fun _ => find_demo) true 1000000000000.
Example C93_refuted_sgip_case : pr_p pr_sgip = P_SGIP /\ last_use 0 (timeline pr_sgip (opened 0) (beat 500000000000)) + pr_force pr_sgip < 1001000000000 /\
  match run pr_sgip (opened 0) (beat 500000000000 ++ beat 1001000000000) with Ok c => map (fun x => match x with OOut KForce _ => 1 | OOut KHeart _ => 2 | _ => 3 end) (sc_log c) | _ => [] end = [1].
Proof. repeat split; vm_compute; reflexivity. Qed.
Print Assumptions C93_kept_partial.
Print Assumptions C93_answer.
Print Assumptions C93_refuted_sgip.
Print Assumptions C93_refuted_short.
