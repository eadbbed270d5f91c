(** * PropCounters: property C79 (the statistics saved for a connection are exact). *)
From Verif Require Import Base OptionsModel CmppModel SgipModel SmgpModel FrameModel SpecServer ServerModel ServerProofs PropFrame PropServer PropWindow PropAnswers.

(** ** Specification *)
(** The packets written that the three statistics stand for. *)
Definition is_report (o : obs) : bool := match o with OOut (KReport _) _ => true | _ => false end.
Definition is_delivery (o : obs) : bool := match o with OOut KDly _ => true | _ => false end.
Definition accepted (o : obs) : bool := match o with OOut (KSubmit _ _ 0) _ => true | _ => false end.

(** ** Invariant *)
Definition paired (it : item) : Prop :=
  match fst (fst it), snd it with
  | KSubmit _ _ code, CbSubmit code' => code' = code
  | KReport _, CbReport => True
  | KDly, CbDly => True
  | (KLogin _ _ | KActive _ | KTerm _ | KForce | KHeart), (CbLogin _ _ _ | CbActive | CbTerm | CbHeart | CbForce) => True
  | _, _ => False
  end.
Definition tallied (c : sconn) : Prop :=
  (forall it, In it (sc_queue c) -> paired it) /\ se_mt (sc_sess c) = count accepted (sc_log c) mod 2 ^ 64
  /\ se_dly (sc_sess c) = count is_delivery (sc_log c) mod 2 ^ 64 /\ se_rpt (sc_sess c) = count is_report (sc_log c) mod 2 ^ 64.
Lemma item_paired pr o j it : item_of pr o j it -> paired it.
Proof. intros H. destruct H; cbn; auto. Qed.
Definition plain (o : obs) : bool := negb (accepted o || is_delivery o || is_report o).
Lemma tallied_note c o : tallied c -> plain o = true -> tallied (note c o).
Proof.
  intros (A & B & C & D) P. unfold plain in P. apply negb_true_iff in P. apply orb_false_iff in P as [P P3]. apply orb_false_iff in P as [P1 P2].
  split; [exact A|]. cbn [note sc_log sc_sess]. rewrite !count_app, !count_one, P1, P2, P3, !Z.add_0_r. auto.
Qed.
Lemma tallied_close c : tallied c -> tallied (OnClose c).
Proof.
  intros H. unfold OnClose. destruct (negb (sc_open c)); [exact H|]. apply tallied_note; [|reflexivity]. destruct H as (A & B).
  split; [intros it []|exact B].
Qed.
Lemma tallied_task pr o i c : tallied c -> tallied (on_task pr o i c).
Proof.
  intros H. destruct (nth_error (sc_tasks c) i) as [[j q]|] eqn:N; [|unfold on_task; rewrite N; exact H].
  pose proof H as (HQ & HS).
  assert (P : forall s its ts w, se_mt s = se_mt (sc_sess c) -> se_dly s = se_dly (sc_sess c) -> se_rpt s = se_rpt (sc_sess c) -> (forall it, In it its -> item_of pr o j it) ->
    tallied (SConn (sc_buf c) (sc_open c) s (sc_chans c) ts (sc_queue c ++ its) w (sc_log c))).
  { intros s its ts w E1 E2 E3 B. split; [intros it I; cbn in I; apply in_app_or in I as [I|I]; [auto|eapply item_paired; eauto]|]. cbn [sc_sess sc_log]. rewrite E1, E2, E3. exact HS. }
  destruct (on_task_step pr o i c j q N) as [W F|Ej|it W I1 C1|g W Q|W Q SS|W Q|k r it code a Ej Eq I1 C1 Ec Ek Ea|s' its w W Eq Nj SS It Wi|its a k Eq W It|g W Q|W Q]; auto.
  - apply P; auto. intros x [<-|[]]. exact I1.
  - unfold try_send. destruct (ch_closed _); [exact H|]. destruct (_ <? _); exact H.
  - apply P; auto. intros x [<-|[]]. exact I1.
  - apply P; try apply SS. intros x Hx. destruct It as [->|(it & -> & I1 & _)]; [destruct Hx|]. destruct Hx as [<-|[]]. exact I1.
  - apply P; auto. intros x Hx. destruct It as [->|(it & -> & I1 & _)]; [destruct Hx|]. destruct Hx as [<-|[]]. exact I1.
  - unfold try_recv. destruct (_ <? _); [exact H|]. destruct (ch_closed _); exact H.
Qed.
Lemma tallied_write o c c' : tallied c -> on_write o c = Ok c' -> tallied c'.
Proof.
  intros H E. unfold on_write in E. destruct (sc_open c); [|injection E as <-; exact H].
  destruct (sc_queue c) as [|[[kd b] f] r] eqn:Q; [injection E as <-; exact H|].
  destruct H as (A & B & C & D). assert (IF : paired (kd, b, f)) by (apply A; rewrite Q; left; reflexivity).
  assert (CR : forall it, In it r -> paired it) by (intros it Hi; apply A; rewrite Q; right; exact Hi).
  assert (OTHER : plain (OOut kd b) = true -> tallied (note (with_queue c r) (OOut kd b))).
  { intros PL. apply tallied_note; [|exact PL]. split; [exact CR|]. auto. }
  destruct kd, f; cbn [paired fst snd] in IF; try contradiction; cbn [callback] in E;
    try (specialize (OTHER eq_refl); set (c1 := note _ _) in *; clearbody c1; destruct OTHER as (A1 & B1);
         first [injection E as <-; split; [exact A1|exact B1]
               |destruct ac as [ac|]; (match type of E with context [?x =? 0] => destruct (x =? 0) end); try discriminate; try (injection E as <-; split; [exact A1|exact B1]);
                apply bind_ok in E as (c2 & E2 & E); injection E as <-; unfold completeLogin in E2; destruct (_ <? 0) eqn:WN; [discriminate|]; injection E2 as <-;
                apply tallied_note; [|reflexivity]; split; [exact A1|exact B1]]).
  - subst code0. destruct (code =? 0) eqn:Z0; injection E as <-.
    + apply Z.eqb_eq in Z0. subst code. split; [exact CR|]. cbn [with_sess note with_queue sc_log sc_sess add_mt se_mt se_dly se_rpt].
      rewrite !count_app, !count_one. cbn [accepted is_delivery is_report]. rewrite !Z.add_0_r. split; [|auto]. rewrite B. unfold u64. rewrite Zplus_mod_idemp_l. reflexivity.
    + apply OTHER. unfold plain. cbn [accepted is_delivery is_report]. destruct code; [discriminate Z0|reflexivity|reflexivity].
  - injection E as <-. split; [exact CR|]. cbn [with_sess note with_queue sc_log sc_sess add_rpt se_mt se_dly se_rpt].
    rewrite !count_app, !count_one. cbn [accepted is_delivery is_report]. rewrite !Z.add_0_r. split; [auto|]. split; [auto|]. rewrite D. unfold u64. rewrite Zplus_mod_idemp_l. reflexivity.
  - injection E as <-. split; [exact CR|]. cbn [with_sess note with_queue sc_log sc_sess add_dly se_mt se_dly se_rpt].
    rewrite !count_app, !count_one. cbn [accepted is_delivery is_report]. rewrite !Z.add_0_r. split; [auto|]. split; [|auto]. rewrite C. unfold u64. rewrite Zplus_mod_idemp_l. reflexivity.
Qed.
Lemma tallied_step pr c e c' : tallied c -> step pr c e = Ok c' -> tallied c'.
Proof.
  intros H E. destruct e as [[seg|i| | |] o]; cbn [step fst snd] in *.
  - apply on_recv_step in E. destruct E as [O1|O1 F|O1 F|k rest O1 F N|k rest h a c1 O1 F Hin Hc HA]; try exact H.
    + apply tallied_close. exact H.
    + assert (G : tallied c1).
      { inversion HA; subst; try exact H; repeat first [exact H|apply tallied_note; [|reflexivity]|match goal with |- tallied (spawn ?x _) => change (tallied x) end]. }
      destruct a; [exact G|apply tallied_close; exact G].
  - injection E as <-. apply tallied_task. exact H.
  - eapply tallied_write; eauto.
  - injection E as <-. unfold on_tick. destruct (negb _); [exact H|]. destruct (_ || _); [destruct (o_acc o); exact H|].
    destruct (se_stat (sc_sess c)); try exact H. destruct (o_acc o), (o_dly o), (o_acc2 o); exact H.
  - injection E as <-. apply tallied_close. exact H.
Qed.
Lemma tallied_run pr : forall es c c', tallied c -> run pr c es = Ok c' -> tallied c'.
Proof. induction es as [|e es IH]; intros c c' H E; cbn [run] in E; [congruence|]. apply bind_ok in E as (c1 & E1 & E2). apply (IH c1); [eapply tallied_step; eauto|exact E2]. Qed.

(** ** C79: the statistics saved for a connection are exact *)
(** In every run, at every moment (in particular when the connection closes and they are saved): the
    three statistics are the numbers of accepting submit answers, of simulated incoming messages and
    of status reports written to this connection, as 64-bit numbers; re-logins do not reset them. *)
Theorem C79_counters : forall pr now es c, run pr (opened now) es = Ok c ->
  se_mt (sc_sess c) = count accepted (sc_log c) mod 2 ^ 64 /\ se_dly (sc_sess c) = count is_delivery (sc_log c) mod 2 ^ 64
  /\ se_rpt (sc_sess c) = count is_report (sc_log c) mod 2 ^ 64.
Proof. intros pr now es c R. apply (tallied_run pr es (opened now) c); [|exact R]. split; [intros it []|repeat split]. Qed.
(** The numbers do not change any more once the connection is closed. *)
Theorem C79_final : forall pr c es c', sc_open c = false -> run pr c es = Ok c' ->
  se_mt (sc_sess c') = se_mt (sc_sess c) /\ se_dly (sc_sess c') = se_dly (sc_sess c) /\ se_rpt (sc_sess c') = se_rpt (sc_sess c).
Proof.
  intros pr c es. revert c. induction es as [|e es IH]; intros c c' O R; cbn [run] in R; [injection R as <-; auto|]. apply bind_ok in R as (c1 & E1 & R).
  assert (X : sc_open c1 = false /\ se_mt (sc_sess c1) = se_mt (sc_sess c) /\ se_dly (sc_sess c1) = se_dly (sc_sess c) /\ se_rpt (sc_sess c1) = se_rpt (sc_sess c)).
  { destruct e as [[seg|i| | |] o]; cbn [step fst snd] in E1.
    - unfold on_recv in E1. rewrite O in E1. cbn [negb] in E1. injection E1 as <-. auto.
    - injection E1 as <-. destruct (nth_error (sc_tasks c) i) as [[j q]|] eqn:N; [|unfold on_task; rewrite N; auto]. rewrite task_open.
      destruct (on_task_step pr o i c j q N) as [W F|Ej|it W I1 C1|g W Q|W Q SS|W Q|k r it code a Ej Eq I1 C1 Ec Ek Ea|s' its w W Eq Nj SS It Wi|its a k Eq W It|g W Q|W Q]; auto.
      + unfold try_send. destruct (ch_closed _); [auto|]. destruct (_ <? _); auto.
      + split; [exact O|]. cbn [sc_sess]. unfold same_sess in SS. destruct SS as (_ & _ & _ & _ & _ & _ & X1 & X2 & X3). auto.
      + unfold try_recv. destruct (_ <? _); [auto|]. destruct (ch_closed _); auto.
    - unfold on_write in E1. rewrite O in E1. injection E1 as <-. auto.
    - unfold on_tick in E1. rewrite O in E1. cbn [negb] in E1. injection E1 as <-. auto.
    - unfold OnClose in E1. rewrite O in E1. cbn [negb] in E1. injection E1 as <-. auto. }
  destruct X as (O1 & X1 & X2 & X3). destruct (IH c1 c' O1 R) as (Y1 & Y2 & Y3). rewrite Y1, Y2, Y3. auto.
Qed.
Print Assumptions C79_counters.
Print Assumptions C79_final.

(** A logged-in CMPP connection: an accepted submit, a refused one and a simulated delivery, then the
    connection closes. *)
Definition tally_tick : orc := Orc true true true 9 false false 1 2 3 (1, 2, 3) (repeat 0 10) (repeat 0 10) (repeat 48 10) (repeat 48 10) (repeat 48 10) 0 0 (fun _ => 1) (Some [1;2;3]) 0.
Definition tally_es : list (event * orc) := es_submit ++ [(ETask 0, tally_tick); (ETick, tally_tick); (ETask 3, tally_tick); (ETask 2, tally_tick); (EWrite, tally_tick); (EWrite, tally_tick); (EWrite, tally_tick); (EWrite, tally_tick); (EClose, tally_tick)].
Example C79_case : match run pr_one (opened 0) tally_es with
  | Ok c => (se_mt (sc_sess c), se_dly (sc_sess c), se_rpt (sc_sess c)) = (1, 1, 1) /\ count accepted (sc_log c) = 1 /\ count is_delivery (sc_log c) = 1 /\ count is_report (sc_log c) = 1 /\ sc_open c = false
  | _ => False end.
Proof. vm_compute. auto. Qed.
