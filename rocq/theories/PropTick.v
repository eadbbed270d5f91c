(** * PropTick: property C56 (the ticker terminates idle and unresponsive peers, and no others). *)
From Verif Require Import Base UtilsModel OptionsModel SpecText CmppModel PropCmpp CmppBuildProofs SgipModel SmgpModel
  FrameModel SpecServer ServerModel ServerProofs PropServer PropWindow PropResponses.

(** ** The timeline of a run *)
(** What a written packet means for the timeline: a login that succeeds, a submit that is accepted,
    a report sent and an active test answered count as use. *)
Definition kind_marks (kd : okind) (now : Z) : list mark :=
  match kd with
  | KHeart => [MHeart]
  | KLogin _ code | KSubmit _ _ code => if code =? 0 then [MUse now] else []
  | KReport _ | KActive _ => [MUse now]
  | KTerm _ | KForce | KDly => []
  end.
(** ... and what is handled: the answer to a heartbeat, or to a delivery. *)
Definition marks (c : sconn) (e : event * orc) : list mark :=
  match fst e with
  | EWrite => match sc_open c, sc_queue c with true, (kd, _, _) :: _ => kind_marks kd (o_now (snd e)) | _, _ => [] end
  | ETask i => match nth_error (sc_tasks c) i with
               | Some (JActiveResp _, PWork) => [MAnswer (o_now (snd e))]
               | Some (JDeliverResp _, PWork) => [MUse (o_now (snd e))]
               | _ => []
               end
  | _ => []
  end.
Fixpoint timeline (pr : params) (c : sconn) (es : list (event * orc)) : list mark :=
  match es with
  | [] => []
  | e :: r => marks c e ++ match step pr c e with Ok c1 => timeline pr c1 r | _ => [] end
  end.

(** ** The session's counters are the timeline's *)
Definition paired (it : item) : Prop :=
  match fst (fst it) with
  | KLogin k code => exists ac, snd it = CbLogin k code ac
  | KSubmit _ _ code => snd it = CbSubmit code
  | KReport _ => snd it = CbReport
  | KActive _ => snd it = CbActive
  | KTerm _ => snd it = CbTerm
  | KForce => snd it = CbForce
  | KHeart => snd it = CbHeart
  | KDly => snd it = CbDly
  end.
Definition clock (t0 : Z) (l : list mark) (c : sconn) : Prop :=
  se_nAt (sc_sess c) = u8 (unanswered l) /\ se_last (sc_sess c) = last_use t0 l /\
  (forall it, In it (sc_queue c) -> paired it) /\ (sc_open c = true -> se_conn (sc_sess c) = true).

Lemma unanswered_app l m : unanswered (l ++ m) = fold_left (fun n m => match m with MHeart => n + 1 | MAnswer _ => 0 | MUse _ => n end) m (unanswered l).
Proof. unfold unanswered. apply fold_left_app. Qed.
Lemma last_app t0 l m : last_use t0 (l ++ m) = last_use (last_use t0 l) m.
Proof. unfold last_use. apply fold_left_app. Qed.
Lemma unanswered_nonneg l : 0 <= unanswered l.
Proof. induction l as [|m l IH] using rev_ind; [reflexivity|]. rewrite unanswered_app. cbn. destruct m; lia. Qed.
Lemma item_paired pr o j it : item_of pr o j it -> paired it.
Proof. intros H. destruct H; cbn; eauto. Qed.
Lemma u8_add a : u8 (u8 a + 1) = u8 (a + 1).
Proof. unfold u8. rewrite Zplus_mod_idemp_l. reflexivity. Qed.

Lemma clock_close t0 l c : clock t0 l c -> clock t0 l (OnClose c).
Proof.
  intros (A & B & C & D). unfold OnClose. destruct (negb (sc_open c)); [repeat split; auto|].
  unfold clock, note, closeResource. cbn [sc_sess sc_queue sc_open with_chans with_sess se_nAt se_last se_conn].
  split; [exact A|]. split; [exact B|]. split; [intros it []|discriminate].
Qed.
Definition quiet (j : job) (q : pc) : bool :=
  match q with PWork => match j with JActiveResp _ | JDeliverResp _ => false | _ => true end | _ => true end.
Lemma task_sess pr o i c j q : nth_error (sc_tasks c) i = Some (j, q) -> quiet j q = true -> sc_sess (on_task pr o i c) = sc_sess c.
Proof.
  intros N X. unfold on_task. rewrite N. destruct (plain_job pr o j c) as [r|] eqn:P.
  - destruct r as [c1| |]; auto. destruct (plain_item _ _ _ _ _ P) as [_ [[J ->]|(it & H1 & H2 & ->)]]; reflexivity.
  - destruct q.
    + destruct (se_win (sc_sess c)); [unfold try_send; repeat match goal with |- context [if ?b then _ else _] => destruct b end|]; reflexivity.
    + unfold try_send; repeat match goal with |- context [if ?b then _ else _] => destruct b end; reflexivity.
    + destruct (work pr o j c) as [[c1 q1]| |] eqn:E; auto. cbn [with_tasks sc_sess]. destruct j; try discriminate P; try discriminate X; cbn [work] in E.
      * destruct (pr_find _ _ _) as [acc|]; [|discriminate]. destruct (negb _); [discriminate|]. unfold sendSubmitResponse in E.
        apply bind_ok in E as ([a c2] & E & E1). apply bind_ok in E as (b & Hb & E). apply bind_ok in E as (c3 & E & E2).
        apply AsyncWrite_ok in E as [H1 ->]. injection E2 as <- <-. injection E1 as <- <-. reflexivity.
      * apply bind_ok in E as (b0 & Hb & E). apply bind_ok in E as (c2 & E & E1). apply AsyncWrite_ok in E as [H1 ->]. injection E1 as <- <-. reflexivity.
      * apply bind_ok in E as (b0 & Hb & E). apply bind_ok in E as (c2 & E & E1). apply AsyncWrite_ok in E as [H1 ->]. injection E1 as <- <-. reflexivity.
      * destruct (se_conn _); [|discriminate]. injection E as <- <-. reflexivity.
    + destruct (report pr o j a c) as [c1| |] eqn:E; auto. cbn [with_tasks sc_sess]. destruct j; cbn [report] in E; try (injection E as <-; reflexivity).
      apply bind_ok in E as (ob & Hb & E). destruct ob as [b|]; [apply AsyncWrite_ok in E as [_ ->]|injection E as <-]; reflexivity.
    + destruct (se_win (sc_sess c)); [unfold try_recv; repeat match goal with |- context [if ?b then _ else _] => destruct b end|]; reflexivity.
    + unfold try_recv; repeat match goal with |- context [if ?b then _ else _] => destruct b end; reflexivity.
    + reflexivity.
Qed.
Lemma task_queue pr o i c : (forall it, In it (sc_queue c) -> paired it) -> forall it, In it (sc_queue (on_task pr o i c)) -> paired it.
Proof.
  intros C. destruct (nth_error (sc_tasks c) i) as [[j q]|] eqn:N; [|unfold on_task; rewrite N; auto].
  assert (Q : forall its, (forall it, In it its -> item_of pr o j it) -> forall it, In it (sc_queue c ++ its) -> paired it).
  { intros its H it Hi. apply in_app_or in Hi as [Hi|Hi]; auto. eapply item_paired, H, Hi. }
  destruct (on_task_step pr o i c j q N) as [W F|Ej|it W I1 C1|g W Q1|W Q1 S|W Q1|k r it code a Ej Eq I1 C1 Ec Ek Ea|s' its w W Eq Nj SS It Wi|its a k Eq W It|g W Q1|W Q1]; auto.
  - cbn [put sc_queue]. apply Q. intros y [<-|[]]. exact I1.
  - unfold try_send. repeat match goal with |- context [if ?b then _ else _] => destruct b end; auto.
  - cbn [put sc_queue]. apply Q. intros y [<-|[]]. exact I1.
  - cbn [sc_queue]. apply Q. destruct It as [->|(b & -> & I1 & _)]; [intros y []|]. intros y [<-|[]]. exact I1.
  - cbn [put sc_queue]. apply Q. destruct It as [->|(b & -> & I1 & _)]; [intros y []|]. intros y [<-|[]]. exact I1.
  - unfold try_recv. repeat match goal with |- context [if ?b then _ else _] => destruct b end; auto.
Qed.
Lemma task_open pr o i c : sc_open (on_task pr o i c) = sc_open c.
Proof.
  destruct (nth_error (sc_tasks c) i) as [[j q]|] eqn:N; [|unfold on_task; rewrite N; auto].
  destruct (on_task_step pr o i c j q N); auto; unfold try_send, try_recv; repeat match goal with |- context [if ?b then _ else _] => destruct b end; auto.
Qed.
Lemma clock_task pr o i c t0 l : clock t0 l c -> clock t0 (l ++ marks c (ETask i, o)) (on_task pr o i c).
Proof.
  intros (A & B & C & D). unfold marks. cbn [fst snd]. destruct (nth_error (sc_tasks c) i) as [[j q]|] eqn:N; [|unfold on_task; rewrite N, app_nil_r; repeat split; auto].
  unfold clock. rewrite task_open. destruct (quiet j q) eqn:X.
  - rewrite (task_sess pr o i c j q N X).
    replace (match j with JActiveResp _ => match q with PWork => [MAnswer (o_now o)] | _ => [] end | JDeliverResp _ => match q with PWork => [MUse (o_now o)] | _ => [] end | _ => [] end)
      with (@nil mark) by (destruct j; auto; destruct q; auto; discriminate X).
    rewrite app_nil_r. split; [exact A|]. split; [exact B|]. split; [apply task_queue, C|exact D].
  - pose proof (task_queue pr o i c C) as TQ. destruct q; try discriminate X. unfold on_task in *. rewrite N in *. destruct j; try discriminate X; cbn [plain_job work] in *;
    cbn [with_tasks with_sess sc_sess sc_open set_nAt set_use se_nAt se_last se_conn]; rewrite unanswered_app, last_app; cbn [fold_left last_use]; auto.
Qed.
Lemma clock_write o c c' t0 l : clock t0 l c -> on_write o c = Ok c' -> clock t0 (l ++ marks c (EWrite, o)) c'.
Proof.
  intros H E. unfold marks. cbn [fst snd]. unfold on_write in E. destruct (sc_open c) eqn:O; [|rewrite app_nil_r; congruence].
  destruct (sc_queue c) as [|[[kd b] f] r] eqn:Q; [rewrite app_nil_r; congruence|]. destruct H as (A & B & C & D).
  assert (P : paired (kd, b, f)) by (apply C; rewrite Q; left; reflexivity).
  assert (C' : forall it, In it r -> paired it) by (intros it Hi; apply C; rewrite Q; right; exact Hi).
  specialize (D O). unfold clock. destruct kd; cbn [paired fst snd] in P; try subst f; cbn [kind_marks callback] in *; rewrite unanswered_app, last_app.
  - destruct P as [ac ->]. cbn [callback] in E. destruct (code =? 0) eqn:Z0; destruct ac as [ac|]; try discriminate E.
    + apply bind_ok in E as (c1 & E & E1). unfold completeLogin in E. destruct (_ <? 0); [discriminate|]. injection E as <-. injection E1 as <-.
      cbn [note with_chans with_sess closeResource sc_sess sc_queue sc_open with_queue se_nAt se_last se_conn fold_left last_use]. auto.
    + injection E as <-. cbn. auto.
    + injection E as <-. cbn. auto.
  - destruct (code =? 0); injection E as <-; cbn; auto.
  - injection E as <-. cbn. auto.
  - injection E as <-. cbn. auto.
  - injection E as <-. cbn. auto.
  - injection E as <-. cbn. auto.
  - injection E as <-. cbn [note with_sess with_queue set_nAt sc_sess sc_queue sc_open se_nAt se_last se_conn fold_left last_use]. rewrite A, u8_add. auto.
  - injection E as <-. cbn. auto.
Qed.
Lemma clock_step pr c e c' t0 l : clock t0 l c -> step pr c e = Ok c' -> clock t0 (l ++ marks c e) c'.
Proof.
  intros H E. destruct e as [[seg|i| | |] o]; cbn [step] in E.
  - unfold marks. cbn [fst]. rewrite app_nil_r. apply on_recv_step in E. destruct E as [O1|O1 F|O1 F|k rest O1 F N|k rest h a c1 O1 F Hin Hc HA]; auto.
    + apply clock_close. exact H.
    + assert (H1 : clock t0 l (with_buf c1 rest)) by (destruct HA; exact H). destruct a; [exact H1|apply clock_close; exact H1].
  - injection E as <-. apply clock_task. exact H.
  - eapply clock_write; eauto.
  - injection E as <-. unfold marks. cbn [fst]. rewrite app_nil_r. unfold on_tick. destruct (negb _); [exact H|]. destruct (_ || _); [destruct (o_acc o); exact H|].
    destruct (se_stat _); try exact H. destruct (o_acc o), (o_dly o); try exact H; destruct (o_acc2 o); exact H.
  - injection E as <-. unfold marks. cbn [fst]. rewrite app_nil_r. apply clock_close. exact H.
Qed.
Lemma clock_run pr es : forall c c' t0 l, clock t0 l c -> run pr c es = Ok c' -> clock t0 (l ++ timeline pr c es) c'.
Proof.
  induction es as [|e es IH]; intros c c' t0 l H E; cbn [run timeline] in *; [rewrite app_nil_r; congruence|].
  apply bind_ok in E as (c1 & E1 & E2). rewrite E1, app_assoc. apply (IH c1); auto. eapply clock_step; eauto.
Qed.
Lemma clock_opened t0 : clock t0 [] (opened t0).
Proof. repeat split; try reflexivity. intros it []. Qed.

(** ** Packets *)
Lemma force_bytes pr o : exists b, force_packet (pr_p pr) o = Ok b /\ terminate_packet (pr_p pr) b.
Proof.
  destruct (pr_p pr); cbn [force_packet terminate_packet].
  - destruct (head_run (NewTerminate (u32 (o_seq o)))) as (f & A & _ & _ & B); [cbn; lia|]. exists f. split; [exact A|]. exists (u32 (o_seq o)). rewrite B. cbn [NewTerminate h_len h_cmd h_seq].
    change (Z.to_nat 12 - 12)%nat with 0%nat. cbn [repeat]. rewrite app_nil_r. reflexivity.
  - destruct (o_q o) as [[x y] z] eqn:Q. destruct (shead_run (NewUnbind (o_q o)) x y z) as (f & A & _ & L & B); [unfold NewUnbind; cbn; lia|exact Q|]. rewrite Q in A. exists f. split; [exact A|]. exists x, y, z.
    rewrite <- (firstn_skipn 20 f), B. cbn [NewUnbind sh_len sh_cmd] in *. assert (X : skipn 20 f = []) by (apply skipn_all2; unfold zlen in L; lia). rewrite X, app_nil_r, <- !app_assoc. reflexivity.
  - destruct (head_run (sm_bare SM_EXIT (u32 (o_seq o)))) as (f & A & _ & _ & B); [cbn; lia|]. exists f. split; [exact A|]. exists (u32 (o_seq o)). rewrite B. cbn [sm_bare h_len h_cmd h_seq].
    change (Z.to_nat 12 - 12)%nat with 0%nat. cbn [repeat]. rewrite app_nil_r. reflexivity.
Qed.
Lemma heart_bytes pr o : pr_p pr <> P_SGIP -> exists b, heart_packet (pr_p pr) o = Some (Ok b) /\ heartbeat_packet (pr_p pr) b.
Proof.
  intros NS. destruct (pr_p pr); try congruence; cbn [heart_packet heartbeat_packet].
  - destruct (head_run (NewActiveTest (u32 (o_seq o)))) as (f & A & _ & _ & B); [cbn; lia|]. exists f. split; [rewrite A; reflexivity|]. exists (u32 (o_seq o)). rewrite B. cbn [NewActiveTest h_len h_cmd h_seq].
    change (Z.to_nat 12 - 12)%nat with 0%nat. cbn [repeat]. rewrite app_nil_r. reflexivity.
  - destruct (head_run (sm_bare SM_ACTIVE_TEST (u32 (o_seq o)))) as (f & A & _ & _ & B); [cbn; lia|]. exists f. split; [change (smhead_Encode ?x) with (head_Encode x); f_equal; exact A|]. exists (u32 (o_seq o)). rewrite B. cbn [sm_bare h_len h_cmd h_seq].
    change (Z.to_nat 12 - 12)%nat with 0%nat. cbn [repeat]. rewrite app_nil_r. reflexivity.
Qed.

(** ** The ticker's decision *)
Lemma tick_test pr t0 l c o : clock t0 l c -> unanswered l < 256 ->
  ((se_last (sc_sess c) + pr_force pr <? o_now o) || (2 <? se_nAt (sc_sess c)) = true <-> overdue t0 (pr_force pr) (o_now o) l).
Proof.
  intros (A & B & _) U. pose proof (unanswered_nonneg l). rewrite A, B. unfold u8. rewrite Z.mod_small by lia. unfold overdue. rewrite orb_true_iff, !Z.ltb_lt. lia.
Qed.
Lemma tick_spares pr t0 l c o : clock t0 l c -> ~ overdue t0 (pr_force pr) (o_now o) l -> (se_last (sc_sess c) + pr_force pr <? o_now o) || (2 <? se_nAt (sc_sess c)) = false.
Proof.
  intros H N. assert (U : unanswered l < 256) by (unfold overdue in N; lia). pose proof (tick_test pr t0 l c o H U) as T. destruct (_ || _); [exfalso; apply N, T; reflexivity|reflexivity].
Qed.
Lemma writes pr b : forall q ws c c', sc_open c = true -> sc_queue c = q ++ [(KForce, b, CbForce)] -> Forall (fun e => fst e = EWrite) ws -> length ws = S (length q) ->
  run pr c ws = Ok c' -> sc_wish c' = true /\ In (OOut KForce b) (sc_log c').
Proof.
  assert (CB : forall o f c c', callback o f c = Ok c' -> sc_open c' = sc_open c /\ sc_queue c' = sc_queue c).
  { intros o f c c' E. destruct f; cbn [callback] in E; try (injection E as <-; auto).
    - destruct ac as [ac|]; destruct (code =? 0); try discriminate E.
      + apply bind_ok in E as (c1 & E & E1). unfold completeLogin in E. destruct (_ <? 0); [discriminate|]. injection E as <-. injection E1 as <-. auto.
      + injection E as <-. auto.
      + injection E as <-. auto.
    - destruct (code =? 0); auto. }
  induction q as [|[[kd x] f] q IH]; intros ws c c' O Q F L E; destruct ws as [|[ev o] ws]; try discriminate L; inversion F as [|? ? F1 F2]; subst; cbn [fst] in F1; subst ev; cbn [run step] in E;
  apply bind_ok in E as (c1 & E1 & E2); unfold on_write in E1; rewrite O, Q in E1; cbn [app] in E1.
  - cbn [callback] in E1. injection E1 as <-. destruct ws; [|discriminate L]. injection E2 as <-. split; [reflexivity|]. cbn [with_wish note sc_log]. apply in_or_app. right. left. reflexivity.
  - destruct (CB _ _ _ _ E1) as [O1 Q1]. apply (IH ws c1 c'); [rewrite O1; exact O|rewrite Q1; reflexivity|exact F2|cbn in L; lia|exact E2].
Qed.

(** ** C56 *)
(** A tick that finds the connection overdue starts a goroutine (if the pool takes it) that queues
    the protocol's terminate request and nothing else; when the loop has written it, the connection
    is being closed. *)
Theorem C56_terminated_partial : forall pr t0 es c o o1, run pr (opened t0) es = Ok c -> sc_open c = true -> unanswered (timeline pr (opened t0) es) < 256 ->
  overdue t0 (pr_force pr) (o_now o) (timeline pr (opened t0) es) -> o_acc o = true ->
  exists b c2, run pr c [(ETick, o); (ETask (length (sc_tasks c)), o1)] = Ok c2 /\ terminate_packet (pr_p pr) b /\
    sc_queue c2 = sc_queue c ++ [(KForce, b, CbForce)] /\ sc_tasks c2 = sc_tasks c /\ sc_log c2 = sc_log c /\ sc_open c2 = true /\
    forall ws c3, Forall (fun e => fst e = EWrite) ws -> length ws = S (length (sc_queue c)) -> run pr c2 ws = Ok c3 ->
    sc_wish c3 = true /\ In (OOut KForce b) (sc_log c3).
Proof.
  intros pr t0 es c o o1 R O U V Acc. pose proof (clock_run pr es _ _ t0 [] (clock_opened t0) R) as H. cbn [app] in H.
  destruct (force_bytes pr o1) as (b & Hb & Tb). exists b.
  assert (T : on_tick pr o c = spawn c JForce).
  { unfold on_tick. rewrite O. cbn [negb]. rewrite (proj2 (tick_test pr t0 _ c o H U) V), Acc. reflexivity. }
  destruct H as (_ & _ & _ & CO). specialize (CO O).
  assert (N : nth_error (sc_tasks (spawn c JForce)) (length (sc_tasks c)) = Some (JForce, PStart)).
  { cbn [spawn with_tasks sc_tasks]. rewrite nth_error_app2 by lia. rewrite Nat.sub_diag. reflexivity. }
  assert (D : del (sc_tasks (spawn c JForce)) (length (sc_tasks c)) = sc_tasks c).
  { cbn [spawn with_tasks sc_tasks]. unfold del. rewrite firstn_app, Nat.sub_diag, firstn_O, app_nil_r, firstn_all, skipn_all2; [apply app_nil_r|]. rewrite app_length. cbn. lia. }
  cbn [run step bind]. rewrite T. unfold on_task. rewrite N. cbn [plain_job]. rewrite Hb. cbn [bind]. unfold AsyncWrite. change (sc_sess (spawn c JForce)) with (sc_sess c). rewrite CO.
  set (c2 := with_tasks _ _). exists c2. split; [reflexivity|]. split; [exact Tb|]. split; [reflexivity|]. split; [exact D|]. split; [reflexivity|]. split; [exact O|].
  intros ws c3 F L E. apply (writes pr b (sc_queue c) ws c2 c3); auto.
Qed.
(** A run in which the connection is never overdue at a tick never sends a terminate request of the
    ticker's: none is written, queued, or about to be. *)
Theorem C56_spared : forall pr t0 es c, run pr (opened t0) es = Ok c ->
  (forall es1 o es2, es = es1 ++ (ETick, o) :: es2 -> ~ overdue t0 (pr_force pr) (o_now o) (timeline pr (opened t0) es1)) ->
  (forall b, ~ In (OOut KForce b) (sc_log c)) /\ (forall b f, ~ In (KForce, b, f) (sc_queue c)) /\ (forall q, ~ In (JForce, q) (sc_tasks c)).
Proof.
  intros pr t0 es. induction es as [|[e o] es IH] using rev_ind; intros c R H; [injection R as <-; repeat split; intros; intros []|].
  assert (RR : exists c1, run pr (opened t0) es = Ok c1 /\ step pr c1 (e, o) = Ok c).
  { clear -R. revert R. generalize (opened t0). induction es as [|x es IH]; intros c0 R; cbn [app run] in R.
    - apply bind_ok in R as (c1 & R & E). exists c0. split; [reflexivity|]. cbn [run] in E. congruence.
    - apply bind_ok in R as (c1 & R & E). destruct (IH c1 E) as (c2 & A & B). exists c2. cbn [run]. rewrite R. auto. }
  destruct RR as (c1 & R1 & S1). destruct (IH c1 R1) as (L & Q & T); [intros a x b E; apply (H a x (b ++ [(e, o)])); rewrite E, <- app_assoc; reflexivity|].
  pose proof (clock_run pr es _ _ t0 [] (clock_opened t0) R1) as CK. cbn [app] in CK. clear IH.
  assert (CL : forall x, (forall b, ~ In (OOut KForce b) (sc_log x)) /\ (forall b f, ~ In (KForce, b, f) (sc_queue x)) /\ (forall q, ~ In (JForce, q) (sc_tasks x)) ->
     (forall b, ~ In (OOut KForce b) (sc_log (OnClose x))) /\ (forall b f, ~ In (KForce, b, f) (sc_queue (OnClose x))) /\ (forall q, ~ In (JForce, q) (sc_tasks (OnClose x)))).
  { intros x (X1 & X2 & X3). unfold OnClose. destruct (negb _); auto. cbn [note sc_log sc_queue sc_tasks closeResource with_chans with_sess].
    split; [intros b Hb; apply in_app_or in Hb as [Hb|[Hb|[]]]; [eapply X1; eauto|discriminate]|]. split; [intros b f []|]. exact X3. }
  destruct e as [seg|i| | |]; cbn [step] in S1.
  - apply on_recv_step in S1. destruct S1 as [O1|O1 F|O1 F|k rest O1 F N|k rest h a c2 O1 F Hin Hc HA]; auto.
    assert (X : (forall b, ~ In (OOut KForce b) (sc_log (with_buf c2 rest))) /\ (forall b f, ~ In (KForce, b, f) (sc_queue (with_buf c2 rest))) /\ (forall q, ~ In (JForce, q) (sc_tasks (with_buf c2 rest)))).
    { destruct HA as [|l E D A|r E D A1 A2 A3 A4|r E D A1 A2 A3 A4|r E D A1 A2 A3 A4|j E1 E2 D A1 A2 W A3 A4]; cbn [with_buf spawn with_tasks note sc_log sc_queue sc_tasks];
      (split; [intros b Hb; repeat (apply in_app_or in Hb as [Hb|[Hb|[]]]; [|try discriminate Hb]); exact (L b Hb)|]); (split; [exact Q|]); try exact T;
      intros q Hq; apply in_app_or in Hq as [Hq|[Hq|[]]]; try discriminate Hq; try (exact (T q Hq)). injection Hq as -> _. discriminate W. }
    destruct a; [exact X|apply CL; exact X].
  - injection S1 as <-. rewrite task_log. split; [exact L|]. destruct (nth_error (sc_tasks c1) i) as [[j q]|] eqn:N; [|unfold on_task; rewrite N; auto].
    assert (NJ : j <> JForce) by (intros ->; apply (T q); eapply nth_error_In; eauto).
    assert (NI : forall it b f, item_of pr o j it -> it <> (KForce, b, f)) by (intros it b f I1 ->; inversion I1; congruence).
    assert (QI : forall its, (forall it, In it its -> item_of pr o j it) -> forall b f, ~ In (KForce, b, f) (sc_queue c1 ++ its)).
    { intros its HI b f Hi. apply in_app_or in Hi as [Hi|Hi]; [eapply Q; eauto|]. apply (NI _ b f (HI _ Hi)). reflexivity. }
    assert (TU : forall q' p, ~ In (JForce, p) (upd (sc_tasks c1) i (j, q'))) by (intros q' p Hp; apply (in_upd _ _ _ _ _ N) in Hp as [Hp|Hp]; [injection Hp; congruence|eapply T; eauto]).
    assert (TD : forall p, ~ In (JForce, p) (del (sc_tasks c1) i)) by (intros p Hp; apply in_del in Hp; eapply T; eauto).
    destruct (on_task_step pr o i c1 j q N) as [W F|Ej|it W I1 C1|g W Q1|W Q1 S|W Q1|k r it code a Ej Eq I1 C1 Ec Ek Ea|s' its w W Eq Nj SS It Wi|its a k Eq W It|g W Q1|W Q1];
    cbn [put with_tasks sc_queue sc_tasks]; try (split; [exact Q|first [apply TU|apply TD|exact T]]; fail).
    + split; [|apply TD]. apply QI. intros y [<-|[]]. exact I1.
    + unfold try_send. destruct (ch_closed _); [auto|]. destruct (_ <? _); cbn; auto.
    + split; [|apply TU]. apply QI. intros y [<-|[]]. exact I1.
    + split; [|apply TU]. apply QI. destruct It as [->|(b & -> & I1 & _)]; [intros y []|]. intros y [<-|[]]. exact I1.
    + split; [|apply TU]. apply QI. destruct It as [->|(b & -> & I1 & _)]; [intros y []|]. intros y [<-|[]]. exact I1.
    + unfold try_recv. destruct (_ <? _); [cbn; auto|]. destruct (ch_closed _); cbn; auto.
  - unfold on_write in S1. destruct (sc_open c1); [|injection S1 as <-; auto]. destruct (sc_queue c1) as [|[[kd b] f] r] eqn:QQ; [injection S1 as <-; rewrite QQ; auto|].
    assert (NK : kd <> KForce) by (intros ->; eapply Q; left; reflexivity).
    assert (L1 : forall b', ~ In (OOut KForce b') (sc_log c1 ++ [OOut kd b])) by (intros b' Hb; apply in_app_or in Hb as [Hb|[Hb|[]]]; [exact (L b' Hb)|congruence]).
    assert (Q1 : forall b f, ~ In (KForce, b, f) r) by (intros b' f' Hq; eapply Q; right; exact Hq).
    destruct f; cbn [callback] in S1; try (injection S1 as <-; cbn; auto; fail).
    + destruct ac as [ac|]; destruct (code =? 0); try discriminate S1; try (injection S1 as <-; cbn; auto; fail).
      apply bind_ok in S1 as (c2 & S1 & E1). unfold completeLogin in S1. destruct (_ <? 0); [discriminate|]. injection S1 as <-. injection E1 as <-.
      cbn [note with_chans with_sess closeResource sc_log sc_queue sc_tasks with_queue]. split; [|auto]. intros b' Hb. apply in_app_or in Hb as [Hb|[Hb|[]]]; [exact (L1 b' Hb)|discriminate].
    + destruct (code =? 0); injection S1 as <-; cbn; auto.
  - injection S1 as <-. specialize (H es o [] eq_refl). pose proof (tick_spares pr t0 _ c1 o CK H) as TS. unfold on_tick. rewrite TS. destruct (negb _); auto.
    assert (AD : forall j x, j <> JForce -> (forall q, ~ In (JForce, q) (sc_tasks x)) -> forall q, ~ In (JForce, q) (sc_tasks (spawn x j))).
    { intros j x NJ X q Hq. cbn [spawn with_tasks sc_tasks] in Hq. apply in_app_or in Hq as [Hq|[Hq|[]]]; [eapply X; eauto|congruence]. }
    assert (NH : JHeart <> JForce) by discriminate. assert (ND : forall y, JDly y <> JForce) by discriminate.
    destruct (se_stat _); [auto| |auto]. destruct (o_acc o), (o_dly o); try destruct (o_acc2 o); (split; [exact L|]); (split; [exact Q|]);
    repeat (apply AD; [first [exact NH|apply ND]|]); exact T.
  - injection S1 as <-. apply CL. auto.
Qed.
(** A logged-in peer that is not overdue but has been idle for more than a minute is sent a heartbeat
    (not by SGIP, which has none); one that has been active is not. *)
Theorem C56_heartbeat : forall pr t0 es c o o1, run pr (opened t0) es = Ok c -> sc_open c = true -> se_stat (sc_sess c) = StatLogin ->
  ~ overdue t0 (pr_force pr) (o_now o) (timeline pr (opened t0) es) -> o_acc o = true ->
  exists c2, run pr c [(ETick, o); (ETask (length (sc_tasks c)), o1)] = Ok c2 /\ sc_log c2 = sc_log c /\ sc_sess c2 = sc_sess c /\
    if (last_use t0 (timeline pr (opened t0) es) + 60 * 1000000000 <? o_now o1) && negb (match pr_p pr with P_SGIP => true | _ => false end)
    then exists b, heartbeat_packet (pr_p pr) b /\ sc_queue c2 = sc_queue c ++ [(KHeart, b, CbHeart)]
    else sc_queue c2 = sc_queue c.
Proof.
  intros pr t0 es c o o1 R O S V Acc. pose proof (clock_run pr es _ _ t0 [] (clock_opened t0) R) as H. cbn [app] in H.
  cbn [run step bind]. unfold on_tick. rewrite O. cbn [negb]. rewrite (tick_spares pr t0 _ c o H V), S, Acc. destruct H as (_ & LU & _ & CO). specialize (CO O).
  set (c1 := match o_dly o with Some b => if o_acc2 o then spawn (spawn c JHeart) (JDly b) else spawn c JHeart | None => spawn c JHeart end).
  assert (X : sc_log c1 = sc_log c /\ sc_sess c1 = sc_sess c /\ sc_queue c1 = sc_queue c /\ nth_error (sc_tasks c1) (length (sc_tasks c)) = Some (JHeart, PStart)).
  { assert (N : nth_error (sc_tasks (spawn c JHeart)) (length (sc_tasks c)) = Some (JHeart, PStart)) by (cbn [spawn with_tasks sc_tasks]; rewrite nth_error_app2 by lia; rewrite Nat.sub_diag; reflexivity).
    unfold c1. destruct (o_dly o); [destruct (o_acc2 o)|]; auto. cbn [spawn with_tasks sc_log sc_sess sc_queue]. split; [auto|]. split; [auto|]. split; [auto|].
    cbn [spawn with_tasks sc_tasks] in N |- *. rewrite nth_error_app1; [exact N|]. rewrite app_length. cbn. lia. }
  destruct X as (X1 & X2 & X3 & X4). unfold on_task. rewrite X4. cbn [plain_job]. rewrite X2, LU. change (60 * 1000000000) with minute.
  destruct (_ <? o_now o1); cbn [andb].
  - destruct (match pr_p pr with P_SGIP => true | _ => false end) eqn:SG.
    + destruct (pr_p pr); try discriminate SG. cbn [heart_packet negb]. eexists. split; [reflexivity|]. cbn [with_tasks sc_log sc_sess sc_queue]. auto.
    + destruct (heart_bytes pr o1) as (b & Hb & HB); [intros E; rewrite E in SG; discriminate|]. rewrite Hb. cbn [bind negb]. unfold AsyncWrite. rewrite X2, CO.
      eexists. split; [reflexivity|]. cbn [with_tasks with_queue sc_log sc_sess sc_queue]. rewrite X3. eauto.
  - eexists. split; [reflexivity|]. cbn [with_tasks sc_log sc_sess sc_queue]. auto.
Qed.
(** C56 says "at the next tick".  That is false when the ticker's pool, which does not wait, is full:
    such a tick changes nothing, however overdue the connection is. *)
Theorem C56_refuted_pool : forall pr t0 es c o, run pr (opened t0) es = Ok c -> unanswered (timeline pr (opened t0) es) < 256 ->
  overdue t0 (pr_force pr) (o_now o) (timeline pr (opened t0) es) -> o_acc o = false -> step pr c (ETick, o) = Ok c.
Proof.
  intros pr t0 es c o R U V Acc. pose proof (clock_run pr es _ _ t0 [] (clock_opened t0) R) as H. cbn [app] in H.
  cbn [step]. unfold on_tick. destruct (negb _); [reflexivity|]. rewrite (proj2 (tick_test pr t0 _ c o H U) V), Acc. reflexivity.
Qed.

(** ** A peer that logs in and then leaves three heartbeats unanswered, one that answers the second *)
Definition at_time (t : Z) : orc := Orc true true true t false true 1 2 3 (1, 2, 3) (repeat 0 10) (repeat 0 10) (repeat 48 10) (repeat 48 10) (repeat 48 10) 0 0 (fun _ => 0) None 0.
Definition beat (t : Z) : list (event * orc) := [(ETick, at_time t); (ETask 0, at_time t); (EWrite, at_time t)].
Definition es_mute : list (event * orc) := firstn 3 es_demo ++ beat 70000000000 ++ beat 80000000000 ++ beat 90000000000.
Definition answer_demo : bytes := [0; 0; 0; 13; 128; 0; 0; 8; 0; 0; 0; 1; 0].
Definition es_alive : list (event * orc) := firstn 3 es_demo ++ beat 70000000000 ++ beat 80000000000 ++
  map (fun e => (e, at_time 81000000000)) [ERecv answer_demo; ETask 0; ETask 0; ETask 0] ++ beat 142000000000.
Definition full : orc := Orc true false false 100000000000 false true 1 2 3 (1, 2, 3) (repeat 0 10) (repeat 0 10) (repeat 48 10) (repeat 48 10) (repeat 48 10) 0 0 (fun _ => 0) None 0.
Example C56_mute : timeline pr_demo (opened 0) es_mute = [MUse 5; MHeart; MHeart; MHeart] /\
  overdue 0 (pr_force pr_demo) 100000000000 (timeline pr_demo (opened 0) es_mute) /\
  match run pr_demo (opened 0) (es_mute ++ beat 100000000000) with Ok c => sc_wish c && sc_open c && beqb (shape (sc_log c)) [1; 4; 3; 6; 6; 6; 6] | _ => false end = true.
Proof.
  assert (T : timeline pr_demo (opened 0) es_mute = [MUse 5; MHeart; MHeart; MHeart]) by (vm_compute; reflexivity). rewrite T.
  split; [reflexivity|]. split; [right; vm_compute; discriminate|vm_compute; reflexivity].
Qed.
Example C56_alive : timeline pr_demo (opened 0) es_alive = [MUse 5; MHeart; MHeart; MAnswer 81000000000; MHeart] /\
  ~ overdue 0 (pr_force pr_demo) 150000000000 (timeline pr_demo (opened 0) es_alive) /\
  match run pr_demo (opened 0) (es_alive ++ beat 150000000000) with Ok c => negb (sc_wish c) && sc_open c | _ => false end = true.
Proof.
  assert (T : timeline pr_demo (opened 0) es_alive = [MUse 5; MHeart; MHeart; MAnswer 81000000000; MHeart]) by (vm_compute; reflexivity). rewrite T.
  split; [reflexivity|]. split; [intros [H|H]; vm_compute in H; [discriminate H|congruence]|vm_compute; reflexivity].
Qed.
(** The mute peer survives a tick at which the pool is full. *)
Example C56_full : match run pr_demo (opened 0) (es_mute ++ [(ETick, full)]) with Ok c => negb (sc_wish c) && sc_open c && (count windowed (sc_tasks c) =? 0) && match sc_tasks c with [] => true | _ => false end | _ => false end = true.
Proof. vm_compute. reflexivity. Qed.
Print Assumptions C56_terminated_partial.
Print Assumptions C56_spared.
Print Assumptions C56_heartbeat.
Print Assumptions C56_refuted_pool.
