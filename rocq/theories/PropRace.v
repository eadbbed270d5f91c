(** * C114: choosing a session while the list of sessions is rebuilt.  Model: RaceModel.v. *)
From Verif Require Import Base StopModel PropStop RaceModel.

(** ** Specification *)
Definition reached (conf : Z) (x : rstate) : Prop := exists d es, rrun conf (rstart d) es = Ok x.
(** A session that can be used: its connection is open and its login was answered. *)
Definition usable (s : st) (c : nat) : Prop := In c (s_open s) /\ ~ In c (s_half s).
(** A sender has seen that there are sessions and goes to take the first. *)
Definition reaching (k : peek) : Prop := match k with KStart0 | KTake _ => True | _ => False end.
(** The maintenance of the list runs or is about to. *)
Definition maintained (s : st) : Prop := s_m s = MSort \/ s_m s = MIdle /\ (s_pend s = true \/ s_stopped s = false).

(** ** Proofs *)
Lemma healthy_usable s c : healthy s c = true <-> usable s c.
Proof. unfold healthy, usable. rewrite andb_true_iff, negb_true_iff, mem_In. rewrite <- mem_In. destruct (mem c (s_half s)) eqn:E; [rewrite mem_In in E; intuition congruence|]. rewrite <- not_true_iff_false, mem_In in E. rewrite mem_In. intuition. Qed.
Lemma rrun_app conf a : forall b x, rrun conf x (a ++ b) = y <- rrun conf x a ;; rrun conf y b.
Proof. induction a as [|e a IH]; intros b x; cbn [app rrun bind]; auto. destruct (rstep conf x e); cbn [bind]; auto. Qed.
Lemma reached_snoc conf x e x1 : reached conf x -> rstep conf x e = Ok x1 -> reached conf x1.
Proof. intros (d & es & H) E. exists d, (es ++ [e]). rewrite rrun_app, H. cbn [bind rrun]. rewrite E. reflexivity. Qed.
Definition seen (s : st) (k : peek) : Prop :=
  match k with KTest (Some c) | KLen (Some c) | KTake (Some c) | KGot c => (c < s_next s)%nat /\ ~ In c (s_left s) | _ => True end.
Definition rinv (conf : Z) (x : rstate) : Prop := inv conf (r_s x) /\ forall k, In k (r_k x) -> seen (r_s x) k.
Lemma left_new conf s e c : inv conf s -> (c < s_next s)%nat -> ~ In c (s_left s) -> (c < s_next (step conf s e))%nat /\ ~ In c (s_left (step conf s e)).
Proof.
  intros H L N. destruct e; cbn [step]; auto.
  - destruct (s_begun s); auto.
  - unfold hook. destruct (s_todo s) as [|[| | |i n old] r]; auto. destruct (i <? n)%nat; auto. destruct (nth_error _ i); auto.
  - destruct (s_stopped s); auto.
  - destruct (s_m s); auto. destruct (s_pend s); auto.
  - destruct (s_m s); auto.
  - destruct (s_m s); auto.
  - destruct (s_m s); auto. destruct (zlen (s_list s) <? max_of conf); auto. destruct (s_cancel s); auto.
  - destruct (s_m s); auto. destruct d; cbn [s_next s_left with_m]; auto. split; [lia|]. intros [X|X]; [lia|auto].
  - destruct (s_m s); auto.
  - destruct (mem _ _); auto.
  - destruct (mem _ _); auto.
Qed.
Lemma in_put (l : list peek) t k x : In x (kput t k l) -> x = k \/ In x l.
Proof. unfold kput. rewrite in_app_iff. intros [H|[H|H]]; [right|left; auto|right]; [rewrite <- (firstn_skipn t l)|rewrite <- (firstn_skipn (S t) l)]; apply in_or_app; auto. Qed.
Lemma rinv_step conf x e x1 : rinv conf x -> rstep conf x e = Ok x1 -> rinv conf x1.
Proof.
  intros [H K] E. destruct e as [e| |t]; cbn [rstep] in E.
  - injection E as <-. split; cbn [r_s r_k]; [apply inv_step; auto|]. intros k Hk. specialize (K k Hk). destruct k as [| |[c|]|[c|]|[c|]|c]; cbn [seen] in *; auto; destruct K; eapply left_new; eauto.
  - injection E as <-. split; cbn [r_s r_k]; auto. intros k Hk. apply in_app_or in Hk as [Hk|[<-|[]]]; [auto|exact I].
  - destruct (nth_error (r_k x) t) as [k|] eqn:N; [|injection E as <-; split; auto]. apply nth_error_In in N.
    destruct (kstep (r_s x) k) as [k1| |] eqn:S1; cbn [bind] in E; try discriminate. injection E as <-. split; cbn [r_s r_k]; auto.
    intros k2 Hk. apply in_put in Hk as [->|Hk]; auto. specialize (K k N).
    assert (F : forall c, first (r_s x) = Ok c -> (c < s_next (r_s x))%nat /\ ~ In c (s_left (r_s x))).
    { intros c. unfold first. destruct (s_list (r_s x)) as [|c0 l] eqn:L; [discriminate|]. injection 1 as <-. split; [apply (i_bl _ _ H)|apply (i_apart _ _ H)]; rewrite L; left; auto. }
    destruct k as [| |r|r|r|c]; cbn [kstep] in S1.
    + injection S1 as <-. destruct (empty _); exact I.
    + destruct (first (r_s x)); cbn [bind] in S1; try discriminate. injection S1 as <-. exact I.
    + injection S1 as <-. destruct r as [c|]; [|exact I]. destruct (healthy _ _); exact K.
    + injection S1 as <-. destruct (empty _); exact K.
    + destruct (first (r_s x)) as [c| |]; cbn [bind] in S1; try discriminate. injection S1 as <-. apply F. reflexivity.
    + injection S1 as <-. exact K.
Qed.
Lemma rinv_run conf es : forall x x1, rinv conf x -> rrun conf x es = Ok x1 -> rinv conf x1.
Proof. induction es as [|e es IH]; intros x x1 H E; cbn [rrun] in E; [injection E as <-; auto|]. destruct (rstep conf x e) as [y| |] eqn:S1; cbn [bind] in E; try discriminate. apply (IH y x1); auto. eapply rinv_step; eauto. Qed.
Lemma rinv_reach conf x : reached conf x -> rinv conf x.
Proof. intros (d & es & E). eapply rinv_run; eauto. split; [apply inv_start|intros k []]. Qed.
Lemma nth_put (l : list peek) t k u : (t < length l)%nat -> nth_error (kput t k l) u = if Nat.eqb u t then Some k else nth_error l u.
Proof.
  intros L. unfold kput. destruct (Nat.eqb u t) eqn:E; [apply Nat.eqb_eq in E; subst u; rewrite nth_error_app2 by (rewrite firstn_length; lia); rewrite firstn_length; replace (t - Nat.min t (length l))%nat with 0%nat by lia; reflexivity|].
  apply Nat.eqb_neq in E. destruct (Nat.lt_ge_cases u t).
  - rewrite nth_error_app1 by (rewrite firstn_length; lia). rewrite <- (firstn_skipn t l) at 2. rewrite nth_error_app1 by (rewrite firstn_length; lia). reflexivity.
  - rewrite nth_error_app2 by (rewrite firstn_length; lia). rewrite firstn_length. replace (u - Nat.min t (length l))%nat with (S (u - S t)) by lia. cbn [nth_error].
    rewrite <- (firstn_skipn (S t) l) at 2. rewrite nth_error_app2 by (rewrite firstn_length; lia). rewrite firstn_length. f_equal. lia.
Qed.

(** ** The theorems *)
(** The session a sender is given can be used at that moment and is still one of the list, however the
    list was sorted, shortened and replaced meanwhile; nothing is taken back. *)
Theorem C114_got : forall conf x e x1 t c, reached conf x -> rstep conf x e = Ok x1 -> nth_error (r_k x1) t = Some (KGot c) ->
  nth_error (r_k x) t = Some (KGot c) \/
  (e = RStep t /\ usable (r_s x1) c /\ In c (s_list (r_s x1))).
Proof.
  intros conf x e x1 t c Rx E G. destruct (rinv_reach _ _ Rx) as [H K]. destruct e as [e| |u]; cbn [rstep] in E.
  - injection E as <-. auto.
  - injection E as <-. cbn [r_k] in G. left. destruct (Nat.lt_ge_cases t (length (r_k x))); [rewrite nth_error_app1 in G by auto; auto|]. rewrite nth_error_app2 in G by auto. destruct (t - length (r_k x))%nat as [|[|]]; cbn in G; discriminate.
  - destruct (nth_error (r_k x) u) as [k|] eqn:N; [|injection E as <-; auto]. assert (L : (u < length (r_k x))%nat) by (apply nth_error_Some; congruence).
    destruct (kstep (r_s x) k) as [k1| |] eqn:S1; cbn [bind] in E; try discriminate. injection E as <-. cbn [r_k r_s] in *. rewrite nth_put in G by auto.
    destruct (Nat.eqb t u) eqn:Tu; [|auto]. apply Nat.eqb_eq in Tu. subst u. injection G as ->.
    specialize (K k ltac:(eapply nth_error_In; eauto)).
    destruct k as [| |r|r|r|c']; cbn [kstep] in S1.
    + destruct (empty _); discriminate.
    + destruct (first _); cbn [bind] in S1; discriminate.
    + destruct r as [c'|]; [|discriminate]. destruct (healthy (r_s x) c') eqn:Hc; [|discriminate]. injection S1 as ->. right. apply healthy_usable in Hc. split; auto. split; auto.
      destruct Hc as [Ho _]. destruct (i_acc _ _ H c Ho) as [X|X]; auto. destruct K as [_ K]. tauto.
    + destruct (empty _); discriminate.
    + destruct (first _); cbn [bind] in S1; discriminate.
    + injection S1 as ->. auto.
Qed.
Print Assumptions C114_got.

(** As long as the list is emptied only while no sender is reaching for its first element, no sender
    crashes. *)
Theorem C114_partial : forall conf d es,
  (forall es1 e es2 x x1, es = es1 ++ e :: es2 -> rrun conf (rstart d) es1 = Ok x -> rstep conf x e = Ok x1 ->
     s_list (r_s x) <> [] -> s_list (r_s x1) = [] -> forall k, In k (r_k x) -> ~ reaching k) ->
  exists x, rrun conf (rstart d) es = Ok x.
Proof.
  intros conf d es H.
  assert (Q : exists x, rrun conf (rstart d) es = Ok x /\ (s_list (r_s x) = [] -> forall k, In k (r_k x) -> ~ reaching k)); [|destruct Q as (x & Q & _); eauto].
  induction es as [|e es IH] using rev_ind.
  - exists (rstart d). split; [reflexivity|intros _ k []].
  - destruct IH as (x & E & Sf). { intros es1 e1 es2 y y1 Es A1 A2 A3 A4. apply (H es1 e1 (es2 ++ [e]) y y1); auto. rewrite Es, <- app_assoc. reflexivity. }
    assert (St1 : exists x1, rstep conf x e = Ok x1).
    { destruct e as [e| |t]; cbn [rstep]; eauto. destruct (nth_error (r_k x) t) as [k|] eqn:N; eauto. apply nth_error_In in N.
      assert (F : reaching k -> exists c, first (r_s x) = Ok c). { intros R1. unfold first. destruct (s_list (r_s x)) eqn:L; eauto. exfalso. exact (Sf eq_refl k N R1). }
      destruct k; cbn [kstep bind]; eauto; destruct (F I) as [c ->]; cbn [bind]; eauto. }
    destruct St1 as [x1 S1]. exists x1. split; [rewrite rrun_app, E; cbn [bind rrun]; rewrite S1; reflexivity|].
    intros L1 k Hk. destruct (s_list (r_s x)) as [|c l] eqn:L.
    + (* it was empty before *)
      specialize (Sf eq_refl). destruct e as [e| |t]; cbn [rstep] in S1.
      * injection S1 as <-. auto.
      * injection S1 as <-. cbn [r_k] in Hk. apply in_app_or in Hk as [Hk|[<-|[]]]; auto.
      * destruct (nth_error (r_k x) t) as [k0|] eqn:N; [|injection S1 as <-; auto]. apply nth_error_In in N.
        destruct (kstep (r_s x) k0) as [k1| |] eqn:Ks; cbn [bind] in S1; try discriminate. injection S1 as <-. cbn [r_k] in Hk. apply in_put in Hk as [->|Hk]; auto.
        destruct k0 as [| |r|r|r|c]; cbn [kstep] in Ks; unfold empty, first in Ks; rewrite ?L in Ks; cbn [bind] in Ks; try discriminate; injection Ks as <-; auto.
        destruct r as [c|]; auto. destruct (healthy _ _); auto.
    + (* emptied by this step *)
      assert (Nr : forall k, In k (r_k x) -> ~ reaching k) by (eapply H; eauto; congruence).
      destruct e as [e| |t]; cbn [rstep] in S1.
      * injection S1 as <-. auto.
      * injection S1 as <-. cbn [r_s] in L1. congruence.
      * destruct (nth_error (r_k x) t); [|injection S1 as <-; congruence]. destruct (kstep _ _); cbn [bind] in S1; try discriminate. injection S1 as <-. cbn [r_s] in L1. congruence.
Qed.
Print Assumptions C114_partial.

(** And that is the exact condition: a sender that is reaching when the list is emptied crashes with
    its next statement. *)
Theorem C114_refuted_exact : forall conf x e x1 t k, rstep conf x e = Ok x1 -> s_list (r_s x) <> [] -> s_list (r_s x1) = [] ->
  nth_error (r_k x) t = Some k -> reaching k -> e = RPool EPrune /\ rrun conf x1 [RStep t] = Panic.
Proof.
  intros conf x e x1 t k S1 L L1 N Re. destruct e as [e| |u]; cbn [rstep] in S1.
  - injection S1 as <-. cbn [r_s] in L1. split.
    + destruct e; auto; cbn [step] in L1; exfalso; apply L.
      * destruct (s_begun (r_s x)); exact L1.
      * unfold hook in L1. destruct (s_todo (r_s x)) as [|[| | |i n old] r]; try exact L1. destruct (i <? n)%nat; [|exact L1]. destruct (nth_error _ i); exact L1.
      * destruct (s_stopped (r_s x)); exact L1.
      * destruct (s_m (r_s x)); try exact L1. destruct (s_pend (r_s x)); exact L1.
      * destruct (s_m (r_s x)); try exact L1. cbn [s_list] in L1. destruct (s_list (r_s x)) as [|c l] eqn:E; auto. assert (X : In c (swap i j (c :: l))) by (apply swap_In; left; auto). rewrite L1 in X. destruct X.
      * destruct (s_m (r_s x)); try exact L1. destruct (zlen _ <? _); [destruct (s_cancel _)|]; exact L1.
      * destruct (s_m (r_s x)); try exact L1. destruct d; cbn [s_list with_m] in L1; try exact L1; destruct (s_list (r_s x)); discriminate.
      * destruct (s_m (r_s x)); exact L1.
      * destruct (mem _ _); exact L1.
      * destruct (mem _ _); exact L1.
    + cbn [rrun rstep r_s r_k]. rewrite N. destruct k; try destruct Re; cbn [kstep]; unfold first; cbn [r_s]; rewrite L1; reflexivity.
  - injection S1 as <-. cbn [r_s] in L1. congruence.
  - destruct (nth_error (r_k x) u); [|injection S1 as <-; congruence]. destruct (kstep _ _); cbn [bind] in S1; try discriminate. injection S1 as <-. cbn [r_s] in L1. congruence.
Qed.
Print Assumptions C114_refuted_exact.

(** A session that stays usable, and no stop of the client, are enough for that. *)
Theorem C114_one_left : forall conf x c es, reached conf x -> In c (s_list (r_s x)) -> usable (r_s x) c ->
  (forall e, In e es -> e <> RPool EHook /\ e <> RPool (ELost c)) ->
  exists x1, rrun conf x es = Ok x1 /\ In c (s_list (r_s x1)) /\ usable (r_s x1) c.
Proof.
  intros conf x c es Rx L U0 He. revert x Rx L U0. induction es as [|e es IH]; intros x Rx L U0; [exists x; split; [reflexivity|auto]|].
  assert (Q : exists x1, rstep conf x e = Ok x1 /\ In c (s_list (r_s x1)) /\ usable (r_s x1) c).
  { destruct (He e (or_introl eq_refl)) as [E1 E2]. destruct (rinv_reach _ _ Rx) as [H _]. destruct e as [e| |t]; cbn [rstep].
    - eexists. split; [reflexivity|]. cbn [r_s]. destruct e; cbn [step]; try (exfalso; apply E1; reflexivity).
      + destruct (s_begun (r_s x)); auto.
      + destruct (s_stopped (r_s x)); auto.
      + destruct (s_m (r_s x)); auto. destruct (s_pend (r_s x)); auto.
      + destruct (s_m (r_s x)); auto. split; [cbn [s_list]; apply swap_In; auto|auto].
      + destruct (s_m (r_s x)); auto. cbn [s_list s_open s_half]. apply healthy_usable in U0. split; [apply filter_In; auto|].
        apply healthy_usable in U0. destruct U0 as [U1 U2]. split; cbn [s_open s_half]; auto. apply filter_In. split; auto. apply negb_true_iff, not_true_iff_false. rewrite mem_In, filter_In, negb_true_iff.
        intros [_ X]. assert (healthy (r_s x) c = true) by (apply healthy_usable; split; auto). congruence.
      + destruct (s_m (r_s x)); auto. destruct (zlen _ <? _); auto. destruct (s_cancel _); auto.
      + assert (Cn : c <> s_next (r_s x)) by (pose proof (i_bl _ _ H c L); lia).
        destruct (s_m (r_s x)); auto. destruct U0 as [U1 U2]. destruct d; cbn [s_list s_open s_half with_m]; unfold usable; cbn [s_list s_open s_half]; (split; [try (apply in_or_app; left); exact L|split; [first [right; exact U1|exact U1]|auto]]). intros [X|X]; auto.
      + destruct (s_m (r_s x)); auto.
      + destruct (mem c0 (s_list (r_s x))); auto. destruct U0 as [U1 U2]. split; auto. split; auto. cbn [s_open with_open]. apply del_In. split; auto. intros ->. apply E2. reflexivity.
      + destruct (mem c0 (s_left (r_s x))) eqn:M; auto. destruct U0 as [U1 U2]. split; auto. split; auto. cbn [s_open with_open]. apply del_In. split; auto. intros ->. apply mem_In in M. apply (i_apart _ _ H c0 L M).
    - eexists. split; [reflexivity|]. auto.
    - destruct (nth_error (r_k x) t) as [k|]; eauto. assert (F : exists c0, first (r_s x) = Ok c0) by (unfold first; destruct (s_list (r_s x)); [destruct L|eauto]). destruct F as [c0 F].
      destruct k; cbn [kstep]; rewrite ?F; cbn [bind]; eauto. }
  destruct Q as (x1 & S1 & L1 & U1). cbn [rrun]. rewrite S1. cbn [bind]. apply IH; auto; [intros; apply He; right; auto|eapply reached_snoc; eauto].
Qed.
Print Assumptions C114_one_left.

(** Otherwise a sender that comes when there are sessions crashes if these are lost at the wrong time:
    from every state with sessions whose list is being maintained. *)
Definition gone (o l : list nat) : list nat := fold_left (fun o c => del c o) l o.
Lemma gone_in l : forall o c, In c (gone o l) <-> In c o /\ ~ In c l.
Proof. induction l as [|a l IH]; intros o c; cbn [gone fold_left]; [tauto|]. change (In c (gone (del a o) l) <-> In c o /\ ~ In c (a :: l)). rewrite IH, del_In. cbn [In]. intuition. Qed.
Lemma lost_all conf l : forall s k, incl l (s_list s) -> rrun conf (RState s k) (map (fun c => RPool (ELost c)) l) = Ok (RState (with_open s (gone (s_open s) l)) k).
Proof.
  induction l as [|c l IH]; intros s k Hl; [destruct s; reflexivity|].
  cbn [map rrun rstep step r_s r_k]. assert (M : mem c (s_list s) = true) by (apply mem_In, Hl; left; auto). rewrite M. cbn [bind].
  rewrite IH by (intros y Hy; apply Hl; right; exact Hy). reflexivity.
Qed.
Definition by_chance (t : nat) (e : revent) : Prop :=
  match e with RNew | RPool ETick | RPool ETake | RPool EPrune | RPool (ELost _) => True | RStep u => u = t | _ => False end.
Theorem C114_refuted : forall conf x, reached conf x -> s_list (r_s x) <> [] -> maintained (r_s x) ->
  exists es, rrun conf x es = Panic /\ Forall (by_chance (length (r_k x))) es.
Proof.
  intros conf x Rx Ne Mt. set (n := length (r_k x)).
  set (s := r_s x) in *. set (l := s_list s). set (o := gone (s_open s) l).
  (* a new sender looks, then all sessions are lost *)
  assert (P1 : rrun conf x (RNew :: RStep n :: map (fun c => RPool (ELost c)) l) = Ok (RState (with_open s o) (r_k x ++ [KStart0]))).
  { cbn [rrun rstep bind r_k r_s]. rewrite nth_error_app2 by (unfold n; lia). replace (n - length (r_k x))%nat with 0%nat by (unfold n; lia). cbn [nth_error kstep]. fold s.
    replace (empty s) with false by (unfold empty; destruct (s_list s); congruence). cbn [bind].
    replace (kput n KStart0 (r_k x ++ [KStart])) with (r_k x ++ [KStart0]).
    - apply lost_all. intros y Hy. exact Hy.
    - unfold n, kput. rewrite firstn_app, firstn_all, Nat.sub_diag. cbn [firstn]. rewrite app_nil_r. rewrite skipn_all2 by (rewrite app_length; cbn; lia). reflexivity. }
  assert (P2 : forall s1, s_list s1 = l -> s_open s1 = o -> s_m s1 = MSort -> rrun conf (RState s1 (r_k x ++ [KStart0])) [RPool EPrune; RStep n] = Panic).
  { intros s1 E1 E2 E3. cbn [rrun rstep step bind r_s r_k]. rewrite E3. cbn [bind]. rewrite nth_error_app2 by (unfold n; lia). replace (n - length (r_k x))%nat with 0%nat by (unfold n; lia). cbn [nth_error kstep first s_list].
    assert (F : filter (healthy s1) (s_list s1) = []).
    { rewrite E1. assert (X : forall y, In y l -> healthy s1 y = false). { intros y Hy. destruct (healthy s1 y) eqn:Hh; auto. apply healthy_usable in Hh as [Hh _]. rewrite E2 in Hh. apply gone_in in Hh as [_ Hh]. tauto. }
      clear - X. induction l as [|y l IH]; auto. cbn [filter]. rewrite (X y (or_introl eq_refl)). apply IH. intros; apply X; right; auto. }
    unfold first. cbn [s_list r_s]. rewrite F. reflexivity. }
  assert (Fl : Forall (by_chance n) (RNew :: RStep n :: map (fun c => RPool (ELost c)) l)).
  { constructor; [exact I|]. constructor; [reflexivity|]. apply Forall_forall. intros e He. apply in_map_iff in He as (c & <- & _). exact I. }
  assert (M : exists es s1, rrun conf (RState (with_open s o) (r_k x ++ [KStart0])) es = Ok (RState s1 (r_k x ++ [KStart0])) /\ s_list s1 = l /\ s_open s1 = o /\ s_m s1 = MSort /\ Forall (by_chance n) es).
  { destruct Mt as [Mt|[Mt [Pd|Sd]]].
    - exists [], (with_open s o). split; [reflexivity|auto].
    - exists [RPool ETake]. eexists. split; [cbn [rrun rstep step bind r_s r_k with_open s_m s_pend]; fold s; rewrite Mt, Pd; reflexivity|]. split; [reflexivity|split; [reflexivity|split; [reflexivity|repeat constructor]]].
    - exists [RPool ETick; RPool ETake]. eexists. split; [cbn [rrun rstep step bind r_s r_k with_open s_m s_pend s_stopped]; fold s; rewrite Sd; cbn [s_m s_pend]; rewrite Mt; reflexivity|]. split; [reflexivity|split; [reflexivity|split; [reflexivity|repeat constructor]]]. }
  destruct M as (es & s1 & R1 & A1 & A2 & A3 & Fe).
  exists ((RNew :: RStep n :: map (fun c => RPool (ELost c)) l) ++ es ++ [RPool EPrune; RStep n]). split.
  - rewrite rrun_app, P1. cbn [bind]. rewrite rrun_app, R1. cbn [bind]. apply P2; auto.
  - apply Forall_app. split; auto. apply Forall_app. split; auto. repeat constructor.
Qed.
Print Assumptions C114_refuted.

(** The first session is lost while a sender comes; the same sender later gets the next one when it
    looks before the loss is noticed. *)
Example C114_case :
  rrun 1 (rstart DMade) [RNew; RStep 0; RPool (ELost 0); RPool ETick; RPool ETake; RPool EPrune; RStep 0] = Panic /\
  (exists x, rrun 1 (rstart DMade) [RNew; RStep 0; RStep 0; RPool (ELost 0); RPool ETick; RPool ETake; RPool EPrune; RStep 0; RStep 0; RPool ETop; RPool (EDial DMade); RStep 0; RStep 0; RStep 0; RStep 0] = Ok x /\
     r_k x = [KGot 1] /\ s_list (r_s x) = [1%nat]) /\
  exists x, rrun 1 (rstart DMade) [RNew; RStep 0; RStep 0; RStep 0; RStep 0; RStep 0; RPool ETick; RPool ETake; RStep 0] = Ok x /\ r_k x = [KGot 0] /\ maintained (r_s x) /\ s_list (r_s x) = [0%nat].
Proof.
  split; [reflexivity|]. split; eexists; (split; [vm_compute; reflexivity|]); cbn; auto. unfold maintained. cbn. auto.
Qed.
