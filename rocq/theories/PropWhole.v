(** * PropWhole: C103 (what stopping the server does to its connections).  Model: WholeModel.v. *)
From Verif Require Import Base OptionsModel CmppModel SgipModel SmgpModel FrameModel SpecServer ServerModel ServerProofs PropFrame PropServer PropWindow PropAnswers EventModel PoolModel MainModel PropSignals WholeModel.

(** ** Specification *)
Definition running (w : whole) : Prop := w_fate w = Runs /\ pc_p (w_proc w) = Alive.
(** The process is ready to be stopped. *)
Definition ready (w : whole) : Prop := running w /\ pc_h (w_proc w) = HWaiting /\ pc_m (w_proc w) = MWaiting.
(** The events of service [k], and those of the process itself. *)
Fixpoint own (k : nat) (es : list wev) : list sevent :=
  match es with
  | [] => []
  | WServe j e :: r => if Nat.eq_dec j k then e :: own k r else own k r
  | _ :: r => own k r
  end.
Fixpoint stops (es : list wev) : list pev :=
  match es with [] => [] | WProc e :: r => e :: stops r | _ :: r => stops r end.
(** How often the log of a connection tells that it was closed and its statistics were saved. *)
Definition closings (c : sconn) : nat := length (filter (fun o => match o with OClose => true | _ => false end) (sc_log c)).

(** ** A connection is closed once *)
Definition once (c : sconn) : Prop := closings c = if sc_open c then 0%nat else 1%nat.
Lemma once_note c o : once c -> o <> OClose -> once (note c o).
Proof.
  unfold once, closings. intros H N. cbn [note sc_log sc_open]. rewrite filter_app, app_length, H.
  destruct o; try congruence; cbn; lia.
Qed.
Lemma once_close c : once c -> once (OnClose c).
Proof.
  intros H. unfold OnClose. destruct (sc_open c) eqn:O; cbn [negb]; [|exact H].
  unfold once, closings in *. cbn [note sc_log sc_open]. rewrite O in H.
  assert (L : sc_log (closeResource c) = sc_log c) by (unfold closeResource; repeat match goal with |- context [match ?x with _ => _ end] => destruct x end; reflexivity).
  rewrite L, filter_app, app_length, H. reflexivity.
Qed.
Lemma once_same c c' : once c -> sc_open c' = sc_open c -> sc_log c' = sc_log c -> once c'.
Proof. unfold once, closings. intros H -> ->. exact H. Qed.
Lemma once_task pr o i c : once c -> once (on_task pr o i c).
Proof.
  intros H. destruct (nth_error (sc_tasks c) i) as [[j q]|] eqn:N; [|unfold on_task; rewrite N; exact H].
  destruct (on_task_step pr o i c j q N) as [W F|Ej|it W I1 C1|g W Q|W Q SS|W Q|k r it code a Ej Eq I1 C1 Ec Ek Ea|s' its w W Eq Nj SS It Wi|its a k Eq W It|g W Q|W Q]; auto;
    try (apply (once_same c); [exact H|reflexivity|reflexivity]).
  - unfold try_send. destruct (ch_closed _); [exact H|]. destruct (_ <? _); exact H.
  - unfold try_recv. destruct (_ <? _); [exact H|]. destruct (ch_closed _); exact H.
Qed.
Lemma once_write o c c' : once c -> on_write o c = Ok c' -> once c'.
Proof.
  intros H E. unfold on_write in E. destruct (sc_open c) eqn:O; [|injection E as <-; exact H].
  destruct (sc_queue c) as [|[[kd b] f] r] eqn:Q; [injection E as <-; exact H|].
  assert (G : once (note (with_queue c r) (OOut kd b))) by (apply once_note; [exact H|discriminate]).
  set (c1 := note _ _) in *. clearbody c1.
  destruct f; cbn [callback] in E;
    try (injection E as <-; exact G);
    try (destruct (_ =? _) in E; injection E as <-; exact G).
  all: destruct ac as [ac|]; (match type of E with context [?x =? 0] => destruct (x =? 0) end); try discriminate; try (injection E as <-; exact G).
  all: apply bind_ok in E as (c2 & E2 & E); injection E as <-; unfold completeLogin in E2; destruct (_ <? 0) eqn:WN; [discriminate|]; injection E2 as <-;
    apply once_note; [exact G|discriminate].
Qed.
Lemma once_step pr c e c' : once c -> step pr c e = Ok c' -> once c'.
Proof.
  intros H E. destruct e as [[seg|i| | |] o]; cbn [step fst snd] in *.
  - apply on_recv_step in E. destruct E as [O1|O1 F|O1 F|k rest O1 F N|k rest h a c1 O1 F Hin Hc HA]; try exact H.
    + apply once_close. exact H.
    + assert (G : once c1).
      { inversion HA; subst; try exact H; repeat first [exact H|apply once_note; [|discriminate]|match goal with |- once (spawn ?x _) => change (once x) end]. }
      destruct a; [exact G|apply once_close; exact G].
  - injection E as <-. apply once_task. exact H.
  - eapply once_write; eauto.
  - injection E as <-. unfold on_tick. destruct (negb _); [exact H|]. destruct (_ || _); [destruct (o_acc o); exact H|].
    destruct (se_stat (sc_sess c)); try exact H. destruct (o_acc o), (o_dly o), (o_acc2 o); exact H.
  - injection E as <-. apply once_close. exact H.
Qed.
Lemma once_srun pr : forall es cs cs', Forall once cs -> srun pr cs es = Ok cs' -> Forall once cs'.
Proof.
  induction es as [|e es IH]; intros cs cs' H E; cbn [srun] in E; [congruence|]. apply bind_ok in E as (c1 & E1 & E2).
  apply (IH c1 cs'); [|exact E2]. destruct e as [now|i e o]; cbn [sstep] in E1.
  - injection E1 as <-. apply Forall_app. split; [exact H|]. repeat constructor.
  - destruct (nth_error cs i) as [c|] eqn:N; [|injection E1 as <-; exact H].
    apply bind_ok in E1 as (c2 & S1 & E1). injection E1 as <-.
    assert (O2 : once c2) by (apply (once_step _ _ _ _ (proj1 (Forall_forall _ _) H c (nth_error_In _ _ N)) S1)).
    apply Forall_forall. intros x Hx. unfold upd in Hx. rewrite !in_app_iff in Hx. rewrite Forall_forall in H.
    destruct Hx as [Hx|[Hx|Hx]].
    + apply H. rewrite <- (firstn_skipn i cs). apply in_or_app. left. exact Hx.
    + destruct Hx as [<-|[]]. exact O2.
    + apply H. rewrite <- (firstn_skipn (S i) cs). apply in_or_app. right. exact Hx.
Qed.

(** ** The process *)
Lemma shutdown_nothing hook order srv : GracefullyShutdown hook order srv = srv.
Proof.
  unfold GracefullyShutdown, ev_FuzzyCall, server_registry.
  replace (flat_map _ order) with (@nil Z); [reflexivity|].
  induction order as [|kv r IH]; [reflexivity|]. cbn [flat_map]. rewrite <- IH. destruct (has_prefix _ _); reflexivity.
Qed.
Lemma put_nth (l : list service) k x j : (k < length l)%nat ->
  length (put_srv l k x) = length l /\ nth_error (put_srv l k x) j = if Nat.eq_dec j k then Some x else nth_error l j.
Proof.
  intros H. unfold put_srv. split.
  - rewrite !app_length, firstn_length, skipn_length. cbn [length]. lia.
  - destruct (Nat.eq_dec j k) as [->|N].
    + rewrite nth_error_app2 by (rewrite firstn_length; lia). rewrite firstn_length.
      replace (k - Nat.min k (length l))%nat with 0%nat by lia. reflexivity.
    + destruct (Nat.lt_ge_cases j k) as [L|L].
      * rewrite nth_error_app1 by (rewrite firstn_length; lia). rewrite <- (firstn_skipn k l) at 2.
        rewrite nth_error_app1 by (rewrite firstn_length; lia). reflexivity.
      * rewrite nth_error_app2 by (rewrite firstn_length; lia). rewrite firstn_length.
        replace (j - Nat.min k (length l))%nat with (S (j - S k)) by lia. cbn [nth_error app].
        rewrite <- (firstn_skipn (S k) l) at 2. rewrite nth_error_app2 by (rewrite firstn_length; lia).
        rewrite firstn_length. f_equal. lia.
Qed.
Lemma ended_stays hook order es : forall w, ~ running w -> wrun hook order es w = w.
Proof.
  induction es as [|e es IH]; intros w N; [reflexivity|]. cbn [wrun fold_left].
  assert (X : wstep hook order w e = w).
  { unfold wstep. destruct (w_fate w) eqn:F, (pc_p (w_proc w)) eqn:P; try reflexivity. elim N. split; assumption. }
  rewrite X. exact (IH w N).
Qed.
Lemma running_dec w : {running w} + {~ running w}.
Proof.
  unfold running. destruct (w_fate w); [|right; intros [X _]; discriminate|right; intros [X _]; discriminate].
  destruct (pc_p (w_proc w)); [left; auto| | |]; right; intros [_ X]; discriminate.
Qed.
Lemma srun_app pr a b : forall cs, srun pr cs (a ++ b) = bind (srun pr cs a) (fun x => srun pr x b).
Proof. induction a as [|e a IH]; intros cs; [reflexivity|]. cbn [app srun bind]. destruct (sstep pr cs e); cbn [bind]; auto. Qed.

Definition follows (w : whole) (es : list wev) (w' : whole) : Prop :=
  length (w_srv w') = length (w_srv w) /\
  forall k s, nth_error (w_srv w) k = Some s ->
    exists s', nth_error (w_srv w') k = Some s' /\ sv_pr s' = sv_pr s /\ srun (sv_pr s) (sv_conns s) (own k es) = Ok (sv_conns s').
Lemma follows_run hook order : forall es w, exists es1 rest, es = es1 ++ rest /\ follows w es1 (wrun hook order es w)
  /\ (running (wrun hook order es w) -> rest = []).
Proof.
  induction es as [|e es IH]; intros w.
  - exists [], []. split; [reflexivity|]. split; [|auto]. split; [reflexivity|]. intros k s H. exists s. auto.
  - destruct (running_dec w) as [Rw|N].
    2: { exists [], (e :: es). split; [reflexivity|]. rewrite ended_stays by exact N. split; [|intros X; elim (N X)].
         split; [reflexivity|]. intros k s H. exists s. auto. }
    change (wrun hook order (e :: es) w) with (wrun hook order es (wstep hook order w e)).
    assert (G : forall w1, w1 = wstep hook order w e -> w_srv w1 = w_srv w -> (forall k, own k [e] = [] \/ nth_error (w_srv w) k = None) ->
      exists es1 rest, e :: es = es1 ++ rest /\ follows w es1 (wrun hook order es w1) /\ (running (wrun hook order es w1) -> rest = [])).
    { intros w1 -> Es Ho. destruct (IH (wstep hook order w e)) as (es1 & rest & -> & (Fl & F) & Fr).
      exists (e :: es1), rest. split; [reflexivity|]. split; [|exact Fr]. rewrite Es in *. split; [exact Fl|].
      intros k s H. destruct (F k s H) as (s' & A & B & C). exists s'. split; [exact A|]. split; [exact B|].
      rewrite <- C. f_equal. destruct (Ho k) as [Hk|Hk]; [|congruence].
      change (e :: es1) with ([e] ++ es1). clear - Hk. destruct e; cbn in *; auto. destruct (Nat.eq_dec k0 k); [discriminate|reflexivity]. }
    destruct e as [pe|k se|k].
    + apply (G _ eq_refl); [|left; reflexivity]. unfold wstep. destruct Rw as [-> ->]. cbn [w_srv].
      destruct pe, (pc_h (w_proc w)); try reflexivity. apply shutdown_nothing.
    + destruct (nth_error (w_srv w) k) as [s|] eqn:Hk.
      2: { apply (G _ eq_refl).
           - unfold wstep. destruct Rw as [-> ->]. rewrite Hk. reflexivity.
           - intros j. cbn [own]. destruct (Nat.eq_dec k j) as [<-|]; [right; exact Hk|left; reflexivity]. }
      destruct (sstep (sv_pr s) (sv_conns s) se) as [cs| |] eqn:Es.
      2,3: exists [], (WServe k se :: es); (split; [reflexivity|]);
           assert (W : wstep hook order w (WServe k se) = Whole (w_proc w) (w_srv w) Crashed) by (unfold wstep; destruct Rw as [-> ->]; rewrite Hk, Es; reflexivity);
           rewrite W, ended_stays by (intros [X _]; discriminate X); (split; [|intros [X _]; discriminate X]);
           (split; [reflexivity|]); intros j t H; exists t; auto.
      assert (W : wstep hook order w (WServe k se) = Whole (w_proc w) (put_srv (w_srv w) k (Service (sv_pr s) cs)) Runs)
        by (unfold wstep; destruct Rw as [-> ->]; rewrite Hk, Es; reflexivity).
      rewrite W. set (w1 := Whole _ _ _). destruct (IH w1) as (es1 & rest & -> & (Fl & F) & Fr).
      exists (WServe k se :: es1), rest. split; [reflexivity|]. split; [|exact Fr].
      assert (Kl : (k < length (w_srv w))%nat) by (apply nth_error_Some; congruence).
      split; [rewrite Fl; apply (put_nth _ k _ 0 Kl)|].
      intros j t H. cbn [own].
      destruct (put_nth (w_srv w) k (Service (sv_pr s) cs) j Kl) as [_ Pn].
      destruct (Nat.eq_dec k j) as [<-|Nj].
      * destruct (Nat.eq_dec k k) as [_|X]; [|congruence].
        destruct (F k _ Pn) as (s' & A & B & C). exists s'. cbn [sv_pr sv_conns] in *. assert (t = s) by congruence. subst t.
        split; [exact A|]. split; [exact B|]. cbn [srun]. rewrite Es. cbn [bind]. exact C.
      * destruct (Nat.eq_dec j k) as [X|_]; [congruence|]. destruct (F j t) as (s' & A & B & C); [unfold w1; cbn [w_srv]; rewrite Pn; exact H|].
        exists s'. auto.
    + destruct (nth_error (w_srv w) k) as [s|] eqn:Hk.
      * exists [WEnds k], es. split; [reflexivity|].
        assert (W : wstep hook order w (WEnds k) = Whole (w_proc w) (w_srv w) Failed) by (unfold wstep; destruct Rw as [-> ->]; rewrite Hk; reflexivity).
        rewrite W, ended_stays by (intros [X _]; discriminate X). split; [|intros [X _]; discriminate X].
        split; [reflexivity|]. intros j t H. exists t. auto.
      * apply (G _ eq_refl); [|left; reflexivity]. unfold wstep. destruct Rw as [-> ->]. rewrite Hk. reflexivity.
Qed.

Lemma stop_from hook order w : ready w -> pc_hooks (w_proc w) = 0%nat ->
  let w' := wrun hook order [WProc Signal; WProc HandlerStep; WProc HandlerStep; WProc MainStep] w in
  orderly (w_proc w') /\ w_srv w' = w_srv w.
Proof.
  destruct w as [[h m q n] srv ft]. intros ((F & P) & Hh & Hm) Hn. cbn [w_fate w_proc w_srv pc_h pc_m pc_p pc_hooks] in *. subst.
  unfold wrun. cbn [fold_left]. unfold wstep. cbn [w_fate w_proc w_srv pc_p pc_h pc_m pc_hooks proc_step].
  rewrite shutdown_nothing. split; [split; reflexivity|reflexivity].
Qed.

(** ** C103 *)
(** What the connections of a service went through when the process has ended (or at any earlier
    moment) is what their own events did, up to the end: nothing is done for the stop. *)
Theorem C103_own_events : forall hook order prs es, let w := wrun hook order es (wstart prs) in
  exists es1 rest, es = es1 ++ rest /\ (running w -> rest = []) /\
  forall k pr, nth_error prs k = Some pr ->
    exists s, nth_error (w_srv w) k = Some s /\ sv_pr s = pr /\ srun pr [] (own k es1) = Ok (sv_conns s).
Proof.
  intros hook order prs es w. destruct (follows_run hook order es (wstart prs)) as (es1 & rest & E & (_ & F) & Fr).
  exists es1, rest. split; [exact E|]. split; [exact Fr|]. intros k pr H.
  destruct (F k (Service pr [])) as (s & A & B & C); [cbn [wstart w_srv]; rewrite nth_error_map, H; reflexivity|].
  exists s. auto.
Qed.
(** Refuted: from every state in which the process waits for a signal, the stop in good order (C84) ends
    it with every connection as it was: the open ones open, their statistics not saved, the answers
    in their queues not written, the submits being worked on not answered. *)
Theorem C103_refuted : forall hook order prs es, let w := wrun hook order es (wstart prs) in ready w ->
  let w' := wrun hook order [WProc Signal; WProc HandlerStep; WProc HandlerStep; WProc MainStep] w in
  orderly (w_proc w') /\ w_srv w' = w_srv w /\
  forall k s c, nth_error (w_srv w') k = Some s -> In c (sv_conns s) -> sc_open c = true -> closings c = 0%nat.
Proof.
  intros hook order prs es w (Rw & Hh & Hm) w'.
  assert (Hk : pc_hooks (w_proc w) = 0%nat).
  { assert (PJ : forall es w0, running (wrun hook order es w0) -> w_proc (wrun hook order es w0) = proc_run (stops es) (w_proc w0)).
    { clear. induction es as [|e es IH]; intros w0 R0; [reflexivity|].
      change (wrun hook order (e :: es) w0) with (wrun hook order es (wstep hook order w0 e)) in *.
      destruct (running_dec w0) as [Rw|N].
      2: { exfalso. apply N. assert (X : wstep hook order w0 e = w0).
           { unfold wstep. destruct (w_fate w0) eqn:F, (pc_p (w_proc w0)) eqn:P; try reflexivity. elim N. split; assumption. }
           rewrite X, ended_stays in R0 by exact N. exact R0. }
      rewrite (IH _ R0). unfold wstep. destruct Rw as [-> P]. rewrite P. destruct e as [pe|k se|k]; cbn [stops].
      - reflexivity.
      - destruct (nth_error _ _); [|reflexivity]. destruct (sstep _ _ _); reflexivity.
      - destruct (nth_error _ _); reflexivity. }
    unfold w in *. rewrite (PJ es (wstart prs) Rw) in *. cbn [wstart w_proc] in *.
    destruct (pinv_run (stops es) _ pinv_new) as [A _ _ _ _]. rewrite A, Hh. reflexivity. }
  destruct (stop_from hook order w (conj Rw (conj Hh Hm)) Hk) as [S1 S2]. fold w' in S1, S2.
  split; [exact S1|]. split; [exact S2|]. rewrite S2.
  intros k s c Hs Hc Ho.
  destruct (follows_run hook order es (wstart prs)) as (es1 & rest & _ & (Fl & Fo) & _).
  fold w in Fl, Fo. cbn [w_srv wstart] in Fl, Fo.
  assert (Hl : (k < length (map (fun pr => Service pr []) prs))%nat) by (rewrite <- Fl; apply nth_error_Some; congruence).
  destruct (nth_error (map (fun pr => Service pr []) prs) k) as [s0|] eqn:E0; [|apply nth_error_None in E0; lia].
  destruct (Fo k s0 E0) as (s' & A & B & C). assert (s' = s) by congruence. subst s'.
  rewrite nth_error_map in E0. destruct (nth_error prs k) as [pr|]; [|discriminate]. injection E0 as <-. cbn [sv_pr sv_conns] in C.
  assert (O1 : Forall once (sv_conns s)) by (apply (once_srun pr (own k es1) [] _ (Forall_nil _) C)).
  rewrite Forall_forall in O1. specialize (O1 c Hc). unfold once in O1. rewrite Ho in O1. exact O1.
Qed.
(** The end of one listener (a port that is in use, an engine that stopped) ends all services, without
    running the hooks and with every connection as it was. *)
Theorem C103_refuted_listener : forall hook order prs es k es', let w := wrun hook order es (wstart prs) in
  running w -> (k < length prs)%nat ->
  let w' := wrun hook order (WEnds k :: es') w in
  w_fate w' = Failed /\ w_proc w' = w_proc w /\ w_srv w' = w_srv w.
Proof.
  intros hook order prs es k es' w [F P] Hk w'.
  assert (L : length (w_srv w) = length prs).
  { destruct (follows_run hook order es (wstart prs)) as (es1 & rest & _ & (Fl & _) & _). fold w in Fl. rewrite Fl. cbn. apply map_length. }
  assert (E : exists s, nth_error (w_srv w) k = Some s).
  { destruct (nth_error (w_srv w) k) eqn:E; [eauto|]. apply nth_error_None in E. lia. }
  destruct E as (s & E).
  assert (W : wstep hook order w (WEnds k) = Whole (w_proc w) (w_srv w) Failed) by (unfold wstep; rewrite F, P, E; reflexivity).
  unfold w'. change (wrun hook order (WEnds k :: es') w) with (wrun hook order es' (wstep hook order w (WEnds k))).
  rewrite W, ended_stays by (intros [X _]; discriminate X). auto.
Qed.
(** What holds: at the end, as at any moment, each connection that was closed before is closed and its
    statistics are saved exactly once, and those of an open one are not saved. *)
Theorem C103_closed_partial : forall hook order prs es k s c, let w := wrun hook order es (wstart prs) in
  nth_error (w_srv w) k = Some s -> In c (sv_conns s) -> closings c = if sc_open c then 0%nat else 1%nat.
Proof.
  intros hook order prs es k s c w Hs Hc.
  destruct (C103_own_events hook order prs es) as (es1 & rest & _ & _ & G). fold w in G.
  assert (L : length (w_srv w) = length prs).
  { destruct (follows_run hook order es (wstart prs)) as (x1 & x2 & _ & (Fl & _) & _). fold w in Fl. rewrite Fl. cbn. apply map_length. }
  assert (Hl : (k < length prs)%nat) by (rewrite <- L; apply nth_error_Some; congruence).
  destruct (nth_error prs k) as [pr|] eqn:E0; [|apply nth_error_None in E0; lia].
  destruct (G k pr E0) as (s' & A & B & C). assert (s' = s) by congruence. subst s'.
  pose proof (once_srun pr (own k es1) [] _ (Forall_nil _) C) as O1. rewrite Forall_forall in O1. exact (O1 c Hc).
Qed.

(** A CMPP service with a logged-in client, two of whose submits are not answered yet, next to an SGIP and
    an SMGP service; the process waits for a signal. *)
Definition whole_es : list wev :=
  [WProc HandlerStep; WProc HandlerStep; WProc MainStep; WServe 0 (SOpen 0)] ++
  map (fun e => WServe 0 (SConnStep 0 (fst e) (snd e))) es_submit ++ [WServe 1 (SOpen 3); WServe 1 (SOpen 4); WServe 1 (SConnStep 0 EClose orc1)].
Example C103_case : let w := wrun (fun _ s => s) [] whole_es (wstart [pr_one; pr_one; pr_one]) in
  ready w /\
  map (fun s => map (fun c => (sc_open c, closings c, zlen (sc_queue c), zlen (sc_tasks c))) (sv_conns s)) (w_srv w)
  = [[(true, 0%nat, 1, 2)]; [(false, 1%nat, 0, 0); (true, 0%nat, 0, 0)]; []].
Proof. vm_compute. repeat split. Qed.
Print Assumptions C103_own_events.
Print Assumptions C103_refuted.
Print Assumptions C103_refuted_listener.
Print Assumptions C103_closed_partial.
