(** * PropBeat: the heartbeats of a client session (C111). *)
From Verif Require Import Base UtilsModel OptionsModel SpecWire SpecFrame CmppModel SgipModel SmgpModel FrameModel ClientModel ClientProofs BeatModel PropResponses PropFrame PropCmpp.
From Verif Require PropPong.

(** ** Specification *)
(** The heartbeat of a protocol: CMPP an active test (8), SMGP an active test (4), both with an empty body.
    SGIP has none. *)
Definition is_beat (p : proto) (b : bytes) : Prop :=
  exists q, 0 <= q < 2 ^ 32 /\ match p with P_CMPP => b = wire_of 8 q [] | P_SMGP => b = wire_of 4 q [] | P_SGIP => False end.
Definition a_minute : Z := 60 * 10 ^ 9.
(** Use of session [i]: a packet came in, a message was sent through it. *)
Definition use (i : nat) (o : bobs) (t : Z) : Prop := o = BGot i t \/ o = BSent i t.
(** The clock does not go back: the times of the events, none before [t]. *)
Definition times (e : bevent) : list Z :=
  match e with
  | BCheck _ now _ _ => [now]
  | BClient (CGot _ _ _ _ o) => [g_now o]
  | BClient (CRecord _ now) | BClient (CWrite _ _ now) | BClient (CPick _ _ _ now) => [now]
  | _ => []
  end.
Fixpoint clock (t : Z) (l : list Z) : Prop := match l with [] => True | u :: r => t <= u /\ clock u r end.
(** Nothing but a packet received on it, a message that cannot be written, or a Close can end session [i]. *)
Definition leaves (i : nat) (e : bevent) : Prop :=
  match e with
  | BClient (CGot j _ _ _ _) | BClient (CClose j) => j <> i
  | BClient (CWrite _ ok _) => ok = true
  | _ => True
  end.
(** The session is usable: logged in, not closed. *)
Definition usable (c : cstate) (i : nat) : Prop := exists s, nth_error (ct_sess c) i = Some s /\ cs_stat s = CLogin /\ cs_con s = true /\ cs_ac s <> None.

(** ** One step *)
Definition last_of (i : nat) (o : bobs) (a : Z) : Z :=
  match o with BGot j t | BSent j t => if (j =? i)%nat then t else a | _ => a end.
Definition last_use (i : nat) (l : list bobs) (a : Z) : Z := fold_left (fun a o => last_of i o a) l a.
Lemma Close_active s s1 : Close s = Ok s1 -> cs_active s1 = cs_active s.
Proof. unfold Close. destruct (cs_stat s); try destruct (cs_con s); intros H; try discriminate H; injection H as <-; reflexivity. Qed.
Lemma handler_active gbd s ca cmd seq f o s1 ca1 out : c_onTraffic gbd s ca cmd seq f o = Ok (s1, ca1, out) -> cs_active s1 = g_now o.
Proof.
  assert (CL : forall s2, Close (touch s (g_now o)) = Ok s2 -> cs_active s2 = g_now o) by (intros s2 E; apply Close_active in E; exact E).
  unfold c_onTraffic, onTrafficCmpp, onTrafficSgip, onTrafficSmgp, answer_or_close, nothing, ClientModel.closing. cbv zeta. intros H.
  destruct (cs_p s);
  repeat match type of H with
    | bind _ _ = _ => let x := fresh "x" in let E := fresh "E" in apply bind_ok in H as (x & E & H)
    | (if ?c then _ else _) = _ => destruct c
    | match ?c with Ok _ => _ | Err _ => _ | Panic => _ end = _ => destruct c
    end; try discriminate H; assert (Y : forall (a b : csess) (c d : caches) (u v : list bytes), Ok (a, c, u) = Ok (b, d, v) -> b = a) by congruence; apply Y in H; subst s1; auto;
    match goal with E : Ok (touch _ _) = Ok ?x |- cs_active ?x = _ => injection E as <-; reflexivity | E : (if _ then _ else _) = Ok ?x |- cs_active ?x = _ => destruct (g_err o); [exact (CL _ E)|injection E as <-; reflexivity] end.
Qed.
(** What a step of the client does to session [i]. *)
Definition kept (c c1 : cstate) (i : nat) (e : cevent) (s : csess) (l : list bobs) : Prop :=
  exists s1, nth_error (ct_sess c1) i = Some s1 /\ cs_p s1 = cs_p s /\ cs_active s1 = last_use i l (cs_active s) /\ (leaves i (BClient e) -> cs_stat s1 = cs_stat s /\ cs_con s1 = cs_con s /\ cs_ac s1 = cs_ac s).
Lemma kept_same c c1 i e s : nth_error (ct_sess c) i = Some s -> ct_sess c1 = ct_sess c -> kept c c1 i e s [].
Proof. intros N E. exists s. rewrite E. split; [exact N|]. split; [reflexivity|]. split; [reflexivity|]. auto. Qed.
Lemma kept_put c c1 i e s j sj s2 l : nth_error (ct_sess c) i = Some s -> nth_error (ct_sess c) j = Some sj -> ct_sess c1 = firstn j (ct_sess c) ++ [s2] ++ skipn (S j) (ct_sess c) ->
  (j <> i -> last_use i l (cs_active s) = cs_active s) ->
  (j = i -> cs_p s2 = cs_p s /\ cs_active s2 = last_use i l (cs_active s) /\ (leaves i (BClient e) -> cs_stat s2 = cs_stat s /\ cs_con s2 = cs_con s /\ cs_ac s2 = cs_ac s)) -> kept c c1 i e s l.
Proof.
  intros N NJ E A B. unfold kept. rewrite E. rewrite (nth_upd _ j s2 sj NJ i). destruct (i =? j)%nat eqn:EI.
  - apply Nat.eqb_eq in EI. subst j. exists s2. split; [reflexivity|]. apply B. reflexivity.
  - apply Nat.eqb_neq in EI. exists s. split; [exact N|]. split; [reflexivity|]. split; [symmetry; apply A; congruence|]. auto.
Qed.
Lemma kept_used c c1 i e s j now : nth_error (ct_sess c) i = Some s -> ct_sess c1 = ct_sess (used c j now) -> kept c c1 i e s (match nth_error (ct_sess c) j with Some _ => [BSent j now] | None => [] end).
Proof.
  intros N E. unfold used in E. destruct (nth_error (ct_sess c) j) as [sj|] eqn:NJ; [|apply kept_same; assumption].
  apply (kept_put c c1 i e s j sj (AddCounter sj now)); auto.
  - intros D. cbn. replace (j =? i)%nat with false by (symmetry; apply Nat.eqb_neq; exact D). reflexivity.
  - intros ->. assert (s = sj) by congruence. subst sj. cbn. rewrite Nat.eqb_refl. auto.
Qed.
Lemma step_keeps pr c e c1 i s : cstep pr c e = Ok c1 -> nth_error (ct_sess c) i = Some s -> kept c c1 i e s (seen pr c e).
Proof.
  intros H N. destruct e as [q msg ops phones|t choice d now|t ok now|t now|t|j cmd seq body o|j|h d now|d now|d now]; cbn [cstep seen] in *;
    try (injection H as <-; apply kept_same; [assumption|reflexivity]).
  - destruct phones; injection H as <-; apply kept_same; auto.
  - destruct choice as [j|].
    2:{ destruct (nth_error (ct_send c) t) as [sd|]; [|injection H as <-; apply kept_same; auto]. destruct (sn_ph sd); try (injection H as <-; apply kept_same; auto; fail).
        destruct (sn_todo sd); injection H as <-; apply kept_same; auto. }
    destruct (nth_error (ct_send c) t) as [sd|] eqn:NS; [|injection H as <-; apply kept_same; auto].
    destruct (sn_ph sd) eqn:PH; try (injection H as <-; apply kept_same; auto; fail).
    destruct (sn_todo sd) as [|phone rest] eqn:TD; [injection H as <-; apply kept_same; auto|].
    destruct (nth_error (ct_sess c) j) as [sj|] eqn:NJ; [|injection H as <-; apply kept_same; auto].
    destruct (HealthCheck sj) eqn:HC; [|injection H as <-; apply kept_same; auto].
    destruct (cs_ac sj) as [ac|] eqn:AC; [|injection H as <-; apply kept_same; auto].
    apply bind_ok in H as (parts & SG & H). rewrite SG. destruct parts as [|p0 parts]; injection H as <-; [|apply kept_same; auto].
    set (c0 := put_send c t (phase sd rest (sn_res sd) SNext)). pose proof (kept_used c0 (say (used c0 j now) [OPick t phone]) i (CPick t (Some j) d now) s j now N eq_refl) as K.
    change (ct_sess c0) with (ct_sess c) in K. rewrite NJ in K. exact K.
  - destruct (nth_error (ct_send c) t) as [sd|] eqn:NS; [|destruct ok; injection H as <-; apply kept_same; auto].
    destruct (sn_ph sd) as [|j phone [|[enc key] r] done| |] eqn:PH; try (destruct ok; injection H as <-; apply kept_same; auto; fail).
    destruct (nth_error (ct_sess c) j) as [sj|] eqn:NJ; [|destruct ok; injection H as <-; apply kept_same; auto].
    apply bind_ok in H as (b & RB & H). destruct ok; [injection H as <-; apply kept_same; auto|].
    apply bind_ok in H as (s2 & CL & H). injection H as <-.
    unfold used. cbn [put_send put_sess ct_sess]. rewrite (nth_upd _ j s2 sj NJ j), Nat.eqb_refl.
    eapply (kept_put c _ i _ s j sj (AddCounter s2 now) _ N NJ).
    + cbn [say put_sess put_send ct_sess]. rewrite firstn_app, firstn_firstn, Nat.min_id, skipn_app. assert (LJ : (j < length (ct_sess c))%nat) by (apply nth_error_Some; congruence).
      rewrite firstn_length_le by lia. rewrite Nat.sub_diag. cbn [firstn]. rewrite app_nil_r. f_equal. f_equal. rewrite skipn_all2 by (rewrite firstn_length; lia). cbn [app]. replace (S j - j)%nat with 1%nat by lia. reflexivity.
    + intros D. cbn. replace (j =? i)%nat with false by (symmetry; apply Nat.eqb_neq; exact D). reflexivity.
    + intros ->. assert (s = sj) by congruence. subst sj. apply Close_keeps in CL as CP. cbn. rewrite Nat.eqb_refl. repeat split; auto; discriminate.
  - destruct (nth_error (ct_send c) t) as [sd|] eqn:NS; [|injection H as <-; apply kept_same; auto].
    destruct (sn_ph sd) as [| |j phone b key r done|] eqn:PH; try (injection H as <-; apply kept_same; auto; fail).
    destruct r as [|p0 r]; injection H as <-; [|apply kept_same; auto].
    match goal with |- kept _ (used ?c0 j now) _ _ _ _ => pose proof (kept_used c0 (used c0 j now) i (CRecord t now) s j now N eq_refl) as K end. exact K.
  - destruct (nth_error (ct_send c) t) as [sd|] eqn:NS; [|injection H as <-; apply kept_same; auto].
    destruct (sn_ph sd); try (injection H as <-; apply kept_same; auto; fail). destruct (sn_todo sd); injection H as <-; apply kept_same; auto.
  - destruct (nth_error (ct_sess c) j) as [sj|] eqn:NJ; [|injection H as <-; apply kept_same; auto].
    apply bind_ok in H as ([[s1 ca] out] & HT & H). injection H as <-. eapply (kept_put c _ i _ s j sj s1 _ N NJ); [reflexivity| |].
    + intros D. cbn. replace (j =? i)%nat with false by (symmetry; apply Nat.eqb_neq; exact D). reflexivity.
    + intros ->. assert (s = sj) by congruence. subst sj. split; [exact (proj1 (handler_eff _ _ _ _ _ _ _ _ _ _ HT))|]. cbn. rewrite Nat.eqb_refl. split; [exact (handler_active _ _ _ _ _ _ _ _ _ _ HT)|]. intros X. destruct (X eq_refl).
  - destruct (nth_error (ct_sess c) j) as [sj|] eqn:NJ; [|injection H as <-; apply kept_same; auto].
    apply bind_ok in H as (s1 & CL & H). injection H as <-. eapply (kept_put c _ i _ s j sj s1 _ N NJ); [reflexivity|reflexivity|].
    intros ->. assert (s = sj) by congruence. subst sj. split; [exact (Close_keeps _ _ CL)|]. split; [exact (Close_active _ _ CL)|]. intros X. destruct (X eq_refl).
Qed.

(** ** A check *)
Lemma beat_packet p q e : ActiveTest_packet p q = Some e -> exists b, e = Ok b /\ is_beat p b /\ b = wire_of (match p with P_CMPP => 8 | _ => 4 end) (u32 q) [].
Proof.
  unfold ActiveTest_packet. destruct p; intros H; try discriminate H; apply (f_equal (fun o => match o with Some x => x | None => Panic end)) in H; subst e.
  - destruct (head_run (NewActiveTest (u32 q))) as (f & A & _ & _ & B); [cbn; lia|]. cbn [NewActiveTest h_len h_cmd h_seq] in B. exists f. split; [exact A|].
    assert (F : f = wire_of 8 (u32 q) []) by (rewrite B; reflexivity). split; [|exact F]. exists (u32 q). split; [apply u32_range|exact F].
  - destruct (head_run (CHead 12 SM_ACTIVE_TEST (u32 q))) as (f & A & _ & _ & B); [cbn; lia|]. cbn [h_len h_cmd h_seq] in B. exists f. split; [exact A|].
    assert (F : f = wire_of 4 (u32 q) []) by (rewrite B; reflexivity). split; [|exact F]. exists (u32 q). split; [apply u32_range|exact F].
Qed.
Lemma healthy_iff s : HealthCheck s = true <-> cs_stat s = CLogin /\ cs_con s = true /\ cs_ac s <> None.
Proof. unfold HealthCheck. destruct (cs_stat s), (cs_con s), (cs_ac s); split; try discriminate; intros H; try (destruct H as (? & ? & ?)); try discriminate; try congruence; repeat split; discriminate. Qed.
(** The verdict is the status; a heartbeat is written exactly when the session is usable, more than a minute
    unused, of a protocol with heartbeats, and the write succeeds. *)
Lemma check_made s now q wok : exists out, HealthCheck_beat s now q wok = Ok (HealthCheck s, out) /\
  (out <> [] -> HealthCheck s = true /\ cs_active s + a_minute < now /\ exists b, out = [b] /\ is_beat (cs_p s) b) /\
  (HealthCheck s = true -> cs_active s + a_minute < now -> cs_p s <> P_SGIP -> wok = true -> out = [wire_of (match cs_p s with P_CMPP => 8 | _ => 4 end) (u32 q) []]).
Proof.
  unfold HealthCheck_beat. change a_minute with minute. destruct (HealthCheck s) eqn:HC; cbn [andb].
  2:{ exists []. split; [reflexivity|]. split; [congruence|discriminate]. }
  destruct (cs_active s + minute <? now) eqn:TM.
  2:{ exists []. split; [reflexivity|]. split; [congruence|]. intros _ X. lia. }
  unfold ActiveTest. destruct (ActiveTest_packet (cs_p s) q) as [e|] eqn:AP.
  2:{ exists []. split; [reflexivity|]. split; [congruence|]. intros _ _ NS. destruct (cs_p s); try discriminate AP. destruct (NS eq_refl). }
  destruct (beat_packet _ _ _ AP) as (b & -> & IB & EB). apply healthy_iff in HC as (_ & CO & _). unfold reply_with. cbn [bind]. rewrite CO. cbn [bind].
  destruct wok; cbn [bind].
  - exists [b]. split; [reflexivity|]. split; [|congruence]. intros _. split; [reflexivity|]. split; [lia|]. eauto.
  - exists []. split; [reflexivity|]. split; [congruence|discriminate].
Qed.

(** ** Runs *)
Lemma brun_app pr a : forall x b, brun pr x (a ++ b) = bind (brun pr x a) (fun y => brun pr y b).
Proof. induction a as [|e a IH]; intros x b; [reflexivity|]. cbn [app brun]. destruct (bstep pr x e); cbn [bind]; auto. Qed.
Lemma last_app i l m a : last_use i (l ++ m) a = last_use i m (last_use i l a).
Proof. apply fold_left_app. Qed.
Lemma bstep_keeps pr x e y i s : bstep pr x e = Ok y -> nth_error (ct_sess (bt_c x)) i = Some s ->
  exists s1 l, nth_error (ct_sess (bt_c y)) i = Some s1 /\ bt_log y = bt_log x ++ l /\ cs_p s1 = cs_p s /\ cs_active s1 = last_use i l (cs_active s) /\
    (leaves i e -> cs_stat s1 = cs_stat s /\ cs_con s1 = cs_con s /\ cs_ac s1 = cs_ac s).
Proof.
  intros H N. destruct e as [e|j now q wok]; cbn [bstep] in H.
  - apply bind_ok in H as (c & C & H). injection H as <-. destruct (step_keeps pr _ e c i s C N) as (s1 & A & B & D & F). exists s1, (seen pr (bt_c x) e). auto.
  - destruct (nth_error (ct_sess (bt_c x)) j) as [sj|] eqn:NJ.
    + destruct (check_made sj now q wok) as (out & E & _). rewrite E in H. cbn [bind] in H. injection H as <-. exists s, [BVerdict j now (HealthCheck sj) out]. cbn. auto 8.
    + injection H as <-. exists s, []. rewrite app_nil_r. cbn. auto 8.
Qed.
Lemma brun_keeps pr es : forall x y i s, brun pr x es = Ok y -> nth_error (ct_sess (bt_c x)) i = Some s ->
  exists s1 l, nth_error (ct_sess (bt_c y)) i = Some s1 /\ bt_log y = bt_log x ++ l /\ cs_p s1 = cs_p s /\ cs_active s1 = last_use i l (cs_active s) /\
    (Forall (leaves i) es -> cs_stat s1 = cs_stat s /\ cs_con s1 = cs_con s /\ cs_ac s1 = cs_ac s).
Proof.
  induction es as [|e es IH]; intros x y i s H N; cbn [brun] in H.
  - injection H as <-. exists s, []. rewrite app_nil_r. cbn. auto 8.
  - apply bind_ok in H as (x1 & S1 & H). destruct (bstep_keeps pr x e x1 i s S1 N) as (s1 & l1 & A1 & B1 & C1 & D1 & E1).
    destruct (IH x1 y i s1 H A1) as (s2 & l2 & A2 & B2 & C2 & D2 & E2). exists s2, (l1 ++ l2). rewrite B2, B1, app_assoc, last_app, <- D1.
    split; [exact A2|]. split; [reflexivity|]. split; [congruence|]. split; [exact D2|]. intros F. inversion F as [|? ? F1 F2]; subst. destruct (E1 F1) as (X1 & X2 & X3), (E2 F2) as (Y1 & Y2 & Y3). repeat split; congruence.
Qed.
(** A verdict in the log was given at a check. *)
Lemma step_log pr x e y : bstep pr x e = Ok y -> exists l, bt_log y = bt_log x ++ l /\
  (l = [] \/ (exists j n k r q w s, e = BCheck j n q w /\ l = [BVerdict j n k r] /\ nth_error (ct_sess (bt_c x)) j = Some s /\ HealthCheck_beat s n q w = Ok (k, r)) \/
   (exists j n, times e = [n] /\ (l = [BGot j n] \/ l = [BSent j n]))).
Proof.
  intros S1. destruct e as [e|j n q w]; cbn [bstep] in S1.
  - apply bind_ok in S1 as (c & C & S1). injection S1 as <-. exists (seen pr (bt_c x) e). split; [reflexivity|].
    unfold seen. destruct e as [| t [j|] d n|t [|] n|t n| |j cmd seq body o| | | |]; auto; cbn [times];
    repeat match goal with |- context [match ?m with _ => _ end] => destruct m; auto end; right; right; eexists; eexists; (split; [reflexivity|auto]).
  - destruct (nth_error (ct_sess (bt_c x)) j) as [s|] eqn:N; [|injection S1 as <-; exists []; rewrite app_nil_r; auto].
    destruct (HealthCheck_beat s n q w) as [[k r]| |] eqn:HB; cbn [bind] in S1; try discriminate S1. injection S1 as <-. eexists. split; [reflexivity|]. right. left. exists j, n, k, r, q, w, s. auto.
Qed.
Lemma snoc_cons {A} (l : list A) (x : A) pre y post : l ++ [x] = pre ++ y :: post -> (post = [] /\ x = y /\ l = pre) \/ exists post', post = post' ++ [x] /\ l = pre ++ y :: post'.
Proof.
  intros E. destruct post as [|z post] using rev_ind.
  - left. apply app_inj_tail in E as [-> ->]. auto.
  - right. exists post. rewrite app_comm_cons, app_assoc in E. apply app_inj_tail in E as [-> ->]. auto.
Qed.
Lemma verdict_at pr es : forall x y pre i now ok out post, bt_log x = [] -> brun pr x es = Ok y -> bt_log y = pre ++ BVerdict i now ok out :: post ->
  exists es1 es2 q wok x1 s, es = es1 ++ BCheck i now q wok :: es2 /\ brun pr x es1 = Ok x1 /\ bt_log x1 = pre /\
    nth_error (ct_sess (bt_c x1)) i = Some s /\ HealthCheck_beat s now q wok = Ok (ok, out).
Proof.
  induction es as [|e es IH] using rev_ind; intros x y pre i now ok out post E H L.
  - cbn in H. injection H as <-. rewrite E in L. destruct pre; discriminate L.
  - rewrite brun_app in H. apply bind_ok in H as (x1 & R & H). cbn [brun] in H. apply bind_ok in H as (y' & S1 & H). injection H as ->.
    destruct (step_log pr x1 e y S1) as (l & LL & CASES).
    assert (K : forall post', bt_log x1 = pre ++ BVerdict i now ok out :: post' -> exists es1 es2 q wok x1 s, es ++ [e] = es1 ++ BCheck i now q wok :: es2 /\ brun pr x es1 = Ok x1 /\ bt_log x1 = pre /\
      nth_error (ct_sess (bt_c x1)) i = Some s /\ HealthCheck_beat s now q wok = Ok (ok, out)).
    { intros post' P. destruct (IH x x1 pre i now ok out post' E R P) as (es1 & es2 & q & wok & x2 & s & A & B). exists es1, (es2 ++ [e]), q, wok, x2, s. split; [rewrite A, <- app_assoc; reflexivity|exact B]. }
    destruct CASES as [->|[(j & n & k & r & q & w & s & -> & -> & N & HB)|(j & n & T1 & CS)]].
    + rewrite app_nil_r in LL. apply (K post). congruence.
    + rewrite L in LL. symmetry in LL. apply snoc_cons in LL as [(-> & V & P)|(post' & -> & P)]; [|apply (K post'); exact P].
      injection V as -> -> -> ->. exists es, [], q, w, x1, s. auto.
    + destruct CS as [-> | ->]; rewrite L in LL; symmetry in LL; apply snoc_cons in LL as [(-> & V & P)|(post' & -> & P)]; try discriminate V; apply (K post'); exact P.
Qed.
(** Under a clock that does not go back the times in the log do not go back either. *)
Definition when (o : bobs) : Z := match o with BGot _ t | BSent _ t | BVerdict _ t _ _ => t end.
Lemma last_cons (l : list Z) u t : last (u :: l) t = last l u.
Proof. revert u t. induction l as [|v l IH]; intros u t; [reflexivity|]. change (last (u :: v :: l) t) with (last (v :: l) t). rewrite !IH. reflexivity. Qed.
Lemma clock_app t l m : clock t (l ++ m) -> clock t l /\ clock (last l t) m.
Proof. revert t. induction l as [|u l IH]; intros t; cbn [app clock]; [cbn; auto|]. intros (A & B). apply IH in B as (B & C). rewrite last_cons. auto. Qed.
Lemma clock_end m : forall t, clock t m -> t <= last m t /\ forall u, In u m -> u <= last m t.
Proof.
  induction m as [|v m IH]; intros t; cbn [clock]; [intros _; cbn; split; [lia|intros u []]|]. intros (A & B). rewrite last_cons. destruct (IH v B) as (C & D). split; [lia|]. intros u [<-|X]; [exact C|exact (D u X)].
Qed.
Lemma clock_low t u l : u <= t -> clock t l -> clock u l.
Proof. destruct l; cbn; [auto|]. intros H (A & B). split; [lia|exact B]. Qed.
Lemma log_times pr es : forall x y t, brun pr x es = Ok y -> clock t (flat_map times es) -> exists l, bt_log y = bt_log x ++ l /\ clock t (map when l).
Proof.
  induction es as [|e es IH]; intros x y t H C; cbn [brun] in H.
  - injection H as <-. exists []. rewrite app_nil_r. cbn. auto.
  - apply bind_ok in H as (x1 & S1 & H). cbn [flat_map] in C. destruct (step_log pr x e x1 S1) as (l & LL & CASES).
    destruct CASES as [->|[(j & n & k & r & q & w & s & -> & -> & N & HB)|(j & n & T1 & CS)]].
    + rewrite app_nil_r in LL. destruct (IH x1 y t H) as (l2 & L2 & C2); [|exists l2; split; [congruence|exact C2]].
      assert (X : times e = [] \/ exists n, times e = [n]) by (destruct e as [[| | | | | | | | |]|]; cbn; eauto). destruct X as [X|(n & X)]; rewrite X in C; [exact C|]. cbn in C. destruct C as (A & B). apply (clock_low n); assumption.
    + cbn [times app clock] in C. destruct C as (A & B). destruct (IH x1 y n H B) as (l2 & L2 & C2). exists (BVerdict j n k r :: l2). rewrite L2, LL, <- app_assoc. cbn. auto.
    + rewrite T1 in C. cbn [app clock] in C. destruct C as (A & B). destruct (IH x1 y n H B) as (l2 & L2 & C2).
      destruct CS as [-> | ->]; (eexists; split; [rewrite L2, LL, <- app_assoc; reflexivity|cbn; auto]).
Qed.
Lemma clock_all t l u : clock t l -> In u l -> t <= u.
Proof. revert t. induction l as [|v l IH]; intros t; cbn; [intros _ []|]. intros (A & B) [->|X]; [exact A|]. specialize (IH v B X). lia. Qed.
Lemma use_last i l : forall a, clock a (map when l) -> a <= last_use i l a /\ (forall o t, In o l -> use i o t -> t <= last_use i l a).
Proof.
  induction l as [|o l IH] using rev_ind; intros a C; [cbn; split; [lia|intros o t []]|].
  rewrite map_app in C. apply clock_app in C as (C1 & C2). destruct (IH a C1) as (I1 & I2). rewrite last_app. cbn [last_use fold_left]. cbn [map clock] in C2. destruct C2 as (C2 & _).
  assert (ALL : forall u, In u (map when l) -> u <= when o).
  { intros u U. pose proof (proj2 (clock_end _ _ C1) u U). lia. }
  assert (LA : last_use i l a <= when o).
  { assert (L0 : last_use i l a = a \/ In (last_use i l a) (map when l)).
    { clear. revert a. induction l as [|p l IH]; intros a; [left; reflexivity|]. cbn [last_use fold_left]. change (fold_left _ l ?b) with (last_use i l b). destruct (IH (last_of i p a)) as [->|X]; [|right; right; exact X].
      destruct p as [j t|j t|j t k r]; cbn [last_of]; try (destruct (j =? i)%nat); auto; right; left; reflexivity. }
    destruct L0 as [->|X]; [|apply ALL; exact X]. destruct (map when l) as [|v m] eqn:M; [cbn in C2; exact C2|]. cbn in C1. specialize (ALL v (or_introl eq_refl)). lia. }
  split; [destruct o as [j t|j t|j t k r]; cbn [last_of when] in *; try destruct (j =? i)%nat; lia|].
  intros p t P U. apply in_app_or in P as [P|[<-|[]]].
  - specialize (I2 p t P U). destruct o as [j u|j u|j u k r]; cbn [last_of when] in *; try destruct (j =? i)%nat; lia.
  - destruct U as [-> | ->]; cbn [last_of]; rewrite Nat.eqb_refl; lia.
Qed.

(** ** The theorems *)
(** C111, where a heartbeat is sent: only to a usable session of a protocol with heartbeats, and only if for
    more than a minute no packet came in on it, no message was sent through it, and it was not logged in. *)
Theorem C111_idle_partial : forall pr l t0 es x s pre i now ok out post, brun pr (bstart l) es = Ok x -> clock t0 (flat_map times es) -> (forall s, In s l -> cs_active s <= t0) ->
  nth_error l i = Some s -> bt_log x = pre ++ BVerdict i now ok out :: post -> out <> [] ->
  exists b, out = [b] /\ is_beat (cs_p s) b /\ ok = true /\ cs_active s + a_minute < now /\ (forall o t, In o pre -> use i o t -> t + a_minute < now).
Proof.
  intros pr l t0 es x s pre i now ok out post R C A N0 L NE. destruct (verdict_at pr es (bstart l) x pre i now ok out post eq_refl R L) as (es1 & es2 & q & wok & x1 & s1 & -> & R1 & L1 & N & HB).
  destruct (brun_keeps pr es1 (bstart l) x1 i s R1 N0) as (s2 & l2 & N2 & L2 & P2 & A2 & _). assert (s2 = s1) by congruence. subst s2. cbn [bstart bt_log app] in L2. assert (X : l2 = pre) by congruence. rewrite X in A2. clear X.
  rewrite flat_map_app in C. apply clock_app in C as (C1 & _). destruct (log_times pr es1 (bstart l) x1 t0 R1 C1) as (l3 & L3 & C3). cbn [bstart bt_log app] in L3. assert (X : l3 = pre) by congruence. rewrite X in C3. clear X.
  destruct (use_last i pre (cs_active s)) as (U1 & U2); [apply (clock_low t0); [apply A; eapply nth_error_In; eassumption|exact C3]|].
  destruct (check_made s1 now q wok) as (out' & E & M & _). rewrite E in HB. injection HB as <- <-. destruct (M NE) as (M1 & M2 & b & M3 & M4). exists b.
  split; [exact M3|]. split; [rewrite <- P2; exact M4|]. split; [exact M1|]. rewrite A2 in M2. split; [lia|]. intros o t O U. specialize (U2 o t O U). lia.
Qed.
Print Assumptions C111_idle_partial.
(** and there a check does write one. *)
Theorem C111_tested_partial : forall pr l es x i s now q, brun pr (bstart l) es = Ok x -> nth_error l i = Some s -> usable (bt_c x) i -> cs_p s <> P_SGIP ->
  cs_active s + a_minute < now -> (forall o t, In o (bt_log x) -> use i o t -> t + a_minute < now) ->
  exists b, is_beat (cs_p s) b /\ bstep pr x (BCheck i now q true) = Ok (BState (bt_c x) (bt_log x ++ [BVerdict i now true [b]])).
Proof.
  intros pr l es x i s now q R N0 (s1 & N & ST) NS A U. destruct (brun_keeps pr es (bstart l) x i s R N0) as (s2 & l2 & N2 & L2 & P2 & A2 & _). assert (s2 = s1) by congruence. subst s2. cbn [bstart bt_log app] in L2. subst l2.
  apply healthy_iff in ST. destruct (check_made s1 now q true) as (out & E & M & W).
  assert (LA : cs_active s1 + a_minute < now).
  { rewrite A2. assert (L0 : last_use i (bt_log x) (cs_active s) = cs_active s \/ exists o, In o (bt_log x) /\ use i o (last_use i (bt_log x) (cs_active s))).
    { generalize (bt_log x) (cs_active s). clear. induction l as [|p l IH]; intros a; [left; reflexivity|]. cbn [last_use fold_left]. change (fold_left _ l ?b) with (last_use i l b). destruct (IH (last_of i p a)) as [->|(o & O & X)]; [|right; exists o; cbn; auto].
      destruct p as [j t|j t|j t k r]; cbn [last_of]; [| |left; reflexivity].
      - destruct (j =? i)%nat eqn:EJ; [|left; reflexivity]. apply Nat.eqb_eq in EJ. subst j. right. exists (BGot i t). split; [left; reflexivity|left; reflexivity].
      - destruct (j =? i)%nat eqn:EJ; [|left; reflexivity]. apply Nat.eqb_eq in EJ. subst j. right. exists (BSent i t). split; [left; reflexivity|right; reflexivity]. }
    destruct L0 as [->|(o & O & X)]; [exact A|]. exact (U o _ O X). }
  rewrite <- P2 in NS. specialize (W ST LA NS eq_refl). assert (NE : out <> []) by (rewrite W; discriminate). destruct (M NE) as (_ & _ & b & M3 & M4). exists b. split; [rewrite <- P2; exact M4|].
  cbn [bstep]. rewrite N, E. cbn [bind]. rewrite ST, M3. reflexivity.
Qed.
Print Assumptions C111_tested_partial.
(** The server reads a heartbeat as one and answers it (C107); the answer counts as use of the session and
    changes nothing else. *)
Theorem C111_answered_partial : forall p b drain gbd s ca o, is_beat p b -> cs_p s = p ->
  exists k a, DecodeAndCheckHeader p drain b = Ok (FPass k []) /\ PropPong.asked p k = Some a /\
  exists body, a = wire_of (2 ^ 31 + pk_cmd k) (pk_seq k) body /\ c_onTraffic gbd s ca (2 ^ 31 + pk_cmd k) (pk_seq k) body o = Ok (touch s (g_now o), ca, []).
Proof.
  intros p b drain gbd s ca o (q & Q & B) P. destruct p; [|destruct B|].
  - set (k := Packet 8 q []). exists k, (wire_of (2 ^ 31 + 8) q [0]). split.
    { assert (LG : legal P_CMPP k) by (split; [cbn; auto 10|split; [exact Q|cbn; split; [constructor|lia]]]).
      pose proof (dch_full P_CMPP drain k [] LG) as X. rewrite app_nil_r in X. rewrite B. change (wire_of 8 q []) with (wire k). rewrite X. unfold body_of, rest_of, k. destruct drain; reflexivity. }
    split; [reflexivity|]. exists [0]. split; [reflexivity|]. unfold c_onTraffic. rewrite P. reflexivity.
  - set (k := Packet 4 q []). exists k, (wire_of (2 ^ 31 + 4) q []). split.
    { assert (LG : legal P_SMGP k) by (split; [cbn; auto 10|split; [exact Q|cbn; split; [constructor|lia]]]).
      pose proof (dch_full P_SMGP drain k [] LG) as X. rewrite app_nil_r in X. rewrite B. change (wire_of 4 q []) with (wire k). rewrite X. unfold body_of, rest_of, k. destruct drain; reflexivity. }
    split; [reflexivity|]. exists []. split; [reflexivity|]. unfold c_onTraffic. rewrite P. reflexivity.
Qed.
Print Assumptions C111_answered_partial.
(** C111, refuted: a session on which nothing comes in stays usable for ever, whatever becomes of its
    heartbeats and however many messages were written into the void; every check says so. *)
Theorem C111_refuted_silent : forall pr x es y i, brun pr x es = Ok y -> usable (bt_c x) i -> Forall (leaves i) es ->
  usable (bt_c y) i /\ exists l, bt_log y = bt_log x ++ l /\ forall now ok out, In (BVerdict i now ok out) l -> ok = true.
Proof.
  intros pr x es. revert x. induction es as [|e es IH]; intros x y i H US F; cbn [brun] in H.
  - injection H as <-. split; [exact US|]. exists []. rewrite app_nil_r. split; [reflexivity|]. intros ? ? ? [].
  - apply bind_ok in H as (x1 & S1 & H). inversion F as [|? ? F1 F2]; subst. destruct US as (s & N & ST).
    assert (U1 : usable (bt_c x1) i).
    { destruct (bstep_keeps pr x e x1 i s S1 N) as (s1 & l1 & A1 & _ & _ & _ & E1). destruct (E1 F1) as (X1 & X2 & X3). exists s1. split; [exact A1|]. rewrite X1, X2, X3. exact ST. }
    destruct (IH x1 y i H U1 F2) as (UY & l2 & L2 & V2). split; [exact UY|]. destruct (step_log pr x e x1 S1) as (l & LL & CASES). exists (l ++ l2). split; [rewrite L2, LL, app_assoc; reflexivity|].
    intros now ok out IN. apply in_app_or in IN as [IN|IN]; [|exact (V2 _ _ _ IN)].
    destruct CASES as [->|[(j & n & k & r & q & w & s' & -> & -> & N' & HB)|(j & n & _ & CS)]]; [destruct IN| |destruct CS as [-> | ->]; destruct IN as [IN|[]]; discriminate IN].
    destruct IN as [IN|[]]. injection IN as -> -> -> ->. assert (s' = s) by congruence. subst s'. destruct (check_made s now q w) as (out' & E & _). rewrite E in HB. injection HB as <- _. apply healthy_iff. exact ST.
Qed.
Print Assumptions C111_refuted_silent.
(** C111, refuted: what becomes of the heartbeats changes nothing.  Two runs that differ only in which of the
    heartbeats could be written have the same sessions, results, packets and verdicts. *)
Definition blind (e : bevent) : bevent := match e with BCheck i now q _ => BCheck i now 0 true | e => e end.
Definition blind_obs (o : bobs) : bobs := match o with BVerdict i now ok _ => BVerdict i now ok [] | o => o end.
Theorem C111_refuted_unnoticed : forall pr es es' x y, map blind es = map blind es' -> brun pr x es = Ok y ->
  exists y', brun pr x es' = Ok y' /\ bt_c y' = bt_c y /\ map blind_obs (bt_log y') = map blind_obs (bt_log y).
Proof.
  intros pr es es' x y E R.
  enough (K : forall es es' x x' y, map blind es = map blind es' -> bt_c x' = bt_c x -> map blind_obs (bt_log x') = map blind_obs (bt_log x) -> brun pr x es = Ok y ->
    exists y', brun pr x' es' = Ok y' /\ bt_c y' = bt_c y /\ map blind_obs (bt_log y') = map blind_obs (bt_log y)) by (exact (K es es' x x y E eq_refl eq_refl R)).
  clear. induction es as [|e es IH]; intros [|e' es'] x x' y E C L R; try discriminate E; cbn [brun] in *.
  - injection R as <-. eauto.
  - cbn [map] in E. injection E as E1 E2. apply bind_ok in R as (x1 & S1 & R).
    assert (S2 : exists x1', bstep pr x' e' = Ok x1' /\ bt_c x1' = bt_c x1 /\ map blind_obs (bt_log x1') = map blind_obs (bt_log x1)).
    { destruct e as [e|i now q w], e' as [e'|i' now' q' w']; cbn [blind] in E1; try discriminate E1.
      - injection E1 as <-. cbn [bstep] in *. rewrite C. apply bind_ok in S1 as (c & CC & S1). injection S1 as <-. rewrite CC. cbn [bind]. eexists. split; [reflexivity|]. cbn [bt_c bt_log]. split; [reflexivity|]. rewrite !map_app, L. reflexivity.
      - injection E1 as <- <-. cbn [bstep] in *. rewrite C. destruct (nth_error (ct_sess (bt_c x)) i) as [s|]; [|injection S1 as <-; eauto].
        destruct (check_made s now q w) as (o1 & X1 & _), (check_made s now q' w') as (o2 & X2 & _). rewrite X1 in S1. rewrite X2. cbn [bind] in *. injection S1 as <-. eexists. split; [reflexivity|]. cbn [bt_c bt_log]. split; [reflexivity|]. rewrite !map_app, L. reflexivity. }
    destruct S2 as (x1' & S2 & C2 & L2). rewrite S2. cbn [bind]. exact (IH es' x1 x1' y E2 C2 L2 R).
Qed.
Print Assumptions C111_refuted_unnoticed.
(** C111, refuted: there is no bound on the heartbeats of a minute; each check of an unused session adds one. *)
Theorem C111_refuted_flood : forall pr l es x i s now qs, brun pr (bstart l) es = Ok x -> nth_error l i = Some s -> usable (bt_c x) i -> cs_p s <> P_SGIP ->
  cs_active s + a_minute < now -> (forall o t, In o (bt_log x) -> use i o t -> t + a_minute < now) ->
  exists bs, length bs = length qs /\ Forall (is_beat (cs_p s)) bs /\
    brun pr x (map (fun q => BCheck i now q true) qs) = Ok (BState (bt_c x) (bt_log x ++ map (fun b => BVerdict i now true [b]) bs)).
Proof.
  intros pr l es x i s now qs. revert es x. induction qs as [|q qs IH]; intros es x R N0 US NS A U.
  - exists []. cbn. rewrite app_nil_r. destruct x. auto.
  - destruct (C111_tested_partial pr l es x i s now q R N0 US NS A U) as (b & B & S1).
    assert (R2 : brun pr (bstart l) (es ++ [BCheck i now q true]) = Ok (BState (bt_c x) (bt_log x ++ [BVerdict i now true [b]]))) by (rewrite brun_app, R; cbn [bind brun]; rewrite S1; reflexivity).
    destruct (IH _ _ R2 N0) as (bs & LB & FB & RB); auto.
    { cbn [bt_log]. intros o t O X. apply in_app_or in O as [O|[<-|[]]]; [exact (U o t O X)|]. destruct X; discriminate. }
    exists (b :: bs). split; [cbn; congruence|]. split; [constructor; assumption|]. cbn [map brun]. rewrite S1. cbn [bind]. rewrite RB. cbn [bt_c bt_log map]. rewrite <- app_assoc. reflexivity.
Qed.
Print Assumptions C111_refuted_flood.
(** The checks are no part of the client's own run: everything proved about [crun] holds here too. *)
Definition own (es : list bevent) : list cevent := flat_map (fun e => match e with BClient e => [e] | _ => [] end) es.
Theorem C111_apart : forall pr es x y, brun pr x es = Ok y -> crun pr (bt_c x) (own es) = Ok (bt_c y).
Proof.
  induction es as [|e es IH]; intros x y H; cbn [brun] in H; [injection H as <-; reflexivity|]. apply bind_ok in H as (x1 & S1 & H). specialize (IH x1 y H).
  destruct e as [e|i now q w]; cbn [own flat_map app] in *; cbn [bstep] in S1.
  - apply bind_ok in S1 as (c & C & S1). injection S1 as <-. cbn [crun bt_c] in *. rewrite C. cbn [bind]. exact IH.
  - destruct (nth_error (ct_sess (bt_c x)) i) as [s|]; [|injection S1 as <-; exact IH]. apply bind_ok in S1 as ([k r] & _ & S1). injection S1 as <-. exact IH.
Qed.
Print Assumptions C111_apart.

(** ** A case: a CMPP session, logged in at 0; a heartbeat of the gateway at 30 s; checks at 80 s (nothing),
    at 91 s twice (two heartbeats), its answer at 92 s, checks at 93 s (nothing) and, the gateway being
    silent from then on, at 153 s (the write fails; usable all the same). *)
Definition sec (n : Z) : Z := n * 10 ^ 9.
Definition bt_sess : csess := CSess P_CMPP CLogin true (Some ac_demo) 0 0.
Definition bt_pr : cparams := CParams (fun _ => None) (fun _ => None).
Definition bt_es : list bevent :=
  [BClient (CGot 0 8 5 [] (GOrc false (sec 30) [])); BCheck 0 (sec 80) 1 true; BCheck 0 (sec 91) 2 true; BCheck 0 (sec 91) 3 true;
   BClient (CGot 0 (2 ^ 31 + 8) 2 [0] (GOrc false (sec 92) [])); BCheck 0 (sec 93) 4 true; BCheck 0 (sec 153) 5 false].
Example C111_case : clock 0 (flat_map times bt_es) /\
  match brun bt_pr (bstart [bt_sess]) bt_es with
  | Ok x => bt_log x = [BGot 0 (sec 30); BVerdict 0 (sec 80) true []; BVerdict 0 (sec 91) true [[0;0;0;12;0;0;0;8;0;0;0;2]]; BVerdict 0 (sec 91) true [[0;0;0;12;0;0;0;8;0;0;0;3]];
                        BGot 0 (sec 92); BVerdict 0 (sec 93) true []; BVerdict 0 (sec 153) true []] /\ usable (bt_c x) 0
  | _ => False
  end.
Proof. split; [vm_compute; repeat split; discriminate|]. vm_compute. split; [reflexivity|]. eexists. split; [reflexivity|]. repeat split. discriminate. Qed.
