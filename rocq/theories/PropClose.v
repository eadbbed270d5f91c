(** * C62: closing a client session, in every interleaving *)
From Verif Require Import Base ClientModel CloseModel.

Definition past_check (p : xphase) : bool := match p with XIdle | XSkipped => false | _ => true end.
Definition in_window (p : xphase) : bool := match p with XPassed | XLocked => true | _ => false end.
Definition inside (p : xphase) : bool := match p with XLocked | XMarked | XConClosed | XCancelled | XCleared => true | _ => false end.
Definition past_mark (p : xphase) : bool := match p with XMarked | XConClosed | XCancelled | XCleared | XDone => true | _ => false end.
Definition past_con (p : xphase) : bool := match p with XConClosed | XCancelled | XCleared | XDone => true | _ => false end.
Definition past_cancel (p : xphase) : bool := match p with XCancelled | XCleared | XDone => true | _ => false end.
Definition past_clear (p : xphase) : bool := match p with XCleared | XDone => true | _ => false end.
Definition skipped (p : xphase) : bool := match p with XSkipped => true | _ => false end.
Definition someone (f : xphase -> bool) (x : xstate) : Prop := exists t p, nth_error (x_ph x) t = Some p /\ f p = true.
Definition is (f : xphase -> bool) (x : xstate) (t : nat) : Prop := exists p, nth_error (x_ph x) t = Some p /\ f p = true.

Lemma phase_at x t ph u : (t < length (x_ph x))%nat -> nth_error (at_phase x t ph) u = if Nat.eqb u t then Some ph else nth_error (x_ph x) u.
Proof.
  intros L. unfold at_phase. destruct (Nat.eqb_spec u t) as [->|N].
  - rewrite nth_error_app2 by (rewrite firstn_length; lia). rewrite firstn_length, Nat.min_l by lia. rewrite Nat.sub_diag. reflexivity.
  - destruct (Nat.lt_ge_cases u t) as [H|H].
    + rewrite nth_error_app1 by (rewrite firstn_length; lia). clear L N. revert u t H. induction (x_ph x) as [|a l IH]; intros [|u] [|t] H; try lia; cbn; auto. destruct t; [lia|]. apply IH. lia.
    + rewrite nth_error_app2 by (rewrite firstn_length; lia). rewrite firstn_length, Nat.min_l by lia. destruct (u - t)%nat as [|d] eqn:D; [lia|]. cbn [app nth_error].
      replace u with (S t + d)%nat by lia. clear. revert d. generalize (S t) as k. induction (x_ph x) as [|a l IH]; intros [|k] d; cbn [skipn nth_error Nat.add]; auto; destruct d; reflexivity.
Qed.
Lemma phase_len x t ph : (t < length (x_ph x))%nat -> length (at_phase x t ph) = length (x_ph x).
Proof. intros L. unfold at_phase. rewrite !app_length, firstn_length, skipn_length. cbn [length]. lia. Qed.

Record xinv (x : xstate) : Prop := {
  xi_lock : forall t, is inside x t -> x_lock x = Some t;
  xi_held : forall t, x_lock x = Some t -> is inside x t;
  xi_mark : someone past_mark x <-> x_stat x = CClosing;
  xi_one : forall t u, is past_con x t -> is past_con x u -> t = u;
  xi_con : x_con x = false <-> someone past_clear x;
  xi_ac : x_ac x = x_con x;
  xi_tok : 0 <= x_tok x <= 1 /\ (0 < x_tok x -> someone past_cancel x);
  xi_closes : (x_closes x = 0 /\ ~ someone past_con x) \/ (x_closes x = 1 /\ someone past_con x);
  xi_skipped : someone skipped x -> x_stat x = CClosing }.

Lemma is_at f x x' t a b : nth_error (x_ph x) t = Some a -> x_ph x' = at_phase x t b -> forall u, is f x' u <-> (u = t /\ f b = true) \/ (u <> t /\ is f x u).
Proof.
  intros N E u. assert (L : (t < length (x_ph x))%nat) by (apply nth_error_Some; congruence). unfold is. rewrite E, (phase_at x t b u L). destruct (Nat.eqb_spec u t) as [->|NE].
  - split; [intros (p & H & F); injection H as <-; auto|intros [[_ F]|[X _]]; [eauto|contradiction]].
  - split; [intros H; right; auto|intros [[X _]|[_ H]]; [contradiction|exact H]].
Qed.
Lemma someone_at f x x' t a b : nth_error (x_ph x) t = Some a -> x_ph x' = at_phase x t b -> (f a = true -> f b = true) -> (someone f x' <-> f b = true \/ someone f x).
Proof.
  intros N E M. pose proof (is_at f x x' t a b N E) as I. split.
  - intros (u & H). apply I in H as [[_ F]|[_ (p & H)]]; [auto|right; exists u, p; exact H].
  - intros [F|(u & p & H & F)]; [exists t; apply I; auto|]. destruct (Nat.eq_dec u t) as [->|NE]; [|exists u; apply I; right; split; [exact NE|exists p; auto]].
    rewrite N in H. injection H as <-. exists t. apply I. left. auto.
Qed.
Lemma is_here f x t a : nth_error (x_ph x) t = Some a -> (is f x t <-> f a = true).
Proof. intros N. unfold is. rewrite N. split; [intros (p & H & F); injection H as <-; exact F|eauto]. Qed.
Lemma xinv_start login n : xinv (xstart login n).
Proof.
  assert (X : forall t p, nth_error (repeat XIdle n) t = Some p -> p = XIdle) by (intros t p H; apply nth_error_In in H; apply repeat_spec in H; exact H).
  assert (N : forall f, f XIdle = false -> ~ someone f (xstart login n)) by (intros f F (t & p & H & G); apply X in H; subst; congruence).
  assert (N' : forall f t, f XIdle = false -> ~ is f (xstart login n) t) by (intros f t F (p & H & G); apply X in H; subst; congruence).
  constructor; cbn [xstart x_lock x_stat x_con x_ac x_tok x_closes].
  - intros t H. exfalso. exact (N' inside t eq_refl H).
  - discriminate.
  - split; [intros H; exfalso; exact (N past_mark eq_refl H)|destruct login; discriminate].
  - intros t u H. exfalso. exact (N' past_con t eq_refl H).
  - split; [discriminate|intros H; exfalso; exact (N past_clear eq_refl H)].
  - reflexivity.
  - split; lia.
  - left. split; [reflexivity|apply N; reflexivity].
  - intros H. exfalso. exact (N skipped eq_refl H).
Qed.
Lemma past_up f g : (forall p, f p = true -> g p = true) -> forall x, someone f x -> someone g x.
Proof. intros H x (t & p & N & F). exists t, p. auto. Qed.
Lemma xinv_step x e x1 : xinv x -> xstep x e = Ok x1 -> xinv x1.
Proof.
  intros I S. destruct e as [t|]; cbn [xstep] in S.
  2:{ destruct (0 <? x_tok x) eqn:T; injection S as <-; [|exact I]. destruct I as [I1 I2 I3 I4 I5 I6 I7 I8 I9]. constructor; try assumption.
      cbn [x_tok]. split; [lia|]. intros H. apply I7. lia. }
  destruct (nth_error (x_ph x) t) as [a|] eqn:N; [|injection S as <-; exact I].
  destruct a.
  - assert (X : exists b, (b = XPassed \/ (b = XSkipped /\ x_stat x = CClosing)) /\ x1 = XState (x_stat x) (x_con x) (x_ac x) (x_tok x) (x_lock x) (x_closes x) (at_phase x t b)) by (destruct (x_stat x) eqn:ST; injection S as <-; eauto).
    destruct X as (b & B & ->). clear S. set (x1 := XState _ _ _ _ _ _ _).
    assert (FB : forall f, f XPassed = false -> f XSkipped = false -> f b = false) by (intros f F1 F2; destruct B as [->|[-> _]]; assumption).
    assert (SO : forall f, f XIdle = false -> f XPassed = false -> f XSkipped = false -> (someone f x1 <-> someone f x)).
    { intros f F0 F1 F2. rewrite (someone_at f x x1 t XIdle b N eq_refl) by congruence. rewrite (FB f F1 F2). intuition congruence. }
    assert (IS : forall f u, f XIdle = false -> f XPassed = false -> f XSkipped = false -> (is f x1 u <-> is f x u)).
    { intros f u F0 F1 F2. rewrite (is_at f x x1 t XIdle b N eq_refl u), (FB f F1 F2). split; [intros [[_ X]|[_ X]]; [discriminate X|exact X]|intros X]. right. split; [|exact X]. intros ->. apply (is_here _ _ _ _ N) in X. congruence. }
    destruct I as [I1 I2 I3 I4 I5 I6 I7 I8 I9]. constructor; cbn [x_lock x_stat x_con x_ac x_tok x_closes x1].
    + intros u H. apply IS in H; auto.
    + intros u H. apply IS; auto.
    + rewrite SO; auto.
    + intros u v H G. apply IS in H; auto. apply IS in G; auto.
    + rewrite SO; auto.
    + exact I6.
    + rewrite SO; auto.
    + rewrite !SO; auto.
    + intros H. apply (someone_at skipped x x1 t XIdle b N eq_refl) in H; [|discriminate]. destruct H as [H|H]; [|auto]. destruct B as [->|[_ B]]; [discriminate H|exact B].
  - destruct (x_lock x) eqn:LK; injection S as <-; [exact I|]. set (x1 := XState _ _ _ _ _ _ _). pose proof (fun f => someone_at f x x1 t _ XLocked N eq_refl) as SO. pose proof (fun f => is_at f x x1 t _ XLocked N eq_refl) as IS.
    destruct I as [I1 I2 I3 I4 I5 I6 I7 I8 I9]. constructor; cbn [x_lock x_stat x_con x_ac x_tok x_closes x1].
    + intros u H. apply IS in H as [[-> _]|[_ H]]; [reflexivity|]. apply I1 in H. congruence.
    + intros u H. injection H as <-. apply IS. left. auto.
    + rewrite SO by discriminate. cbn. rewrite <- I3. intuition discriminate.
    + intros u v H G. apply IS in H as [[_ H]|[_ H]]; [discriminate H|]. apply IS in G as [[_ G]|[_ G]]; [discriminate G|]. auto.
    + rewrite SO by discriminate. cbn. rewrite I5. intuition discriminate.
    + exact I6.
    + rewrite SO by discriminate. intuition.
    + rewrite !SO by discriminate. cbn. intuition discriminate.
    + intros H. apply SO in H as [H|H]; [discriminate H|auto|discriminate].
  - injection S as <-. set (x1 := XState _ _ _ _ _ _ _). pose proof (fun f => someone_at f x x1 t _ XMarked N eq_refl) as SO. pose proof (fun f => is_at f x x1 t _ XMarked N eq_refl) as IS.
    destruct I as [I1 I2 I3 I4 I5 I6 I7 I8 I9]. assert (LT : x_lock x = Some t) by (apply I1; apply (is_here _ _ _ _ N); reflexivity). constructor; cbn [x_lock x_stat x_con x_ac x_tok x_closes x1].
    + intros u H. apply IS in H as [[-> _]|[_ H]]; auto.
    + intros u H. rewrite LT in H. injection H as <-. apply IS. left. auto.
    + rewrite SO by reflexivity. cbn. intuition.
    + intros u v H G. apply IS in H as [[_ H]|[_ H]]; [discriminate H|]. apply IS in G as [[_ G]|[_ G]]; [discriminate G|]. auto.
    + rewrite SO by discriminate. cbn. rewrite I5. intuition discriminate.
    + exact I6.
    + rewrite SO by discriminate. intuition.
    + rewrite !SO by discriminate. cbn. intuition discriminate.
    + reflexivity.
  - destruct (x_con x) eqn:CN; [|discriminate S]. injection S as <-. set (x1 := XState _ _ _ _ _ _ _). pose proof (fun f => someone_at f x x1 t _ XConClosed N eq_refl) as SO. pose proof (fun f => is_at f x x1 t _ XConClosed N eq_refl) as IS.
    destruct I as [I1 I2 I3 I4 I5 I6 I7 I8 I9]. assert (LT : x_lock x = Some t) by (apply I1; apply (is_here _ _ _ _ N); reflexivity).
    assert (NC : ~ someone past_con x).
    { intros (u & p & H & F). assert (X : is past_con x u) by (exists p; auto). destruct (past_clear p) eqn:PC; [assert (someone past_clear x) as Y by (exists u, p; auto); apply I5 in Y; congruence|].
      assert (IN : is inside x u) by (exists p; split; [exact H|destruct p; try discriminate; reflexivity]). apply I1 in IN. assert (u = t) by congruence. subst u. rewrite N in H. injection H as <-. discriminate F. }
    constructor; cbn [x_lock x_stat x_con x_ac x_tok x_closes x1].
    + intros u H. apply IS in H as [[-> _]|[_ H]]; auto.
    + intros u H. rewrite LT in H. injection H as <-. apply IS. left. auto.
    + rewrite SO by reflexivity. cbn. rewrite <- I3. split; [intros _|auto]. exists t, XMarked. auto.
    + intros u v H G. apply IS in H as [[-> _]|[_ (p & H & F)]]; [|exfalso; apply NC; exists u, p; auto]. apply IS in G as [[-> _]|[_ (p & G & F)]]; [reflexivity|exfalso; apply NC; exists v, p; auto].
    + rewrite SO by discriminate. cbn. rewrite <- I5, CN. intuition discriminate.
    + congruence.
    + rewrite SO by discriminate. intuition.
    + right. destruct I8 as [[-> _]|[_ Y]]; [|contradiction]. split; [reflexivity|]. apply SO; [reflexivity|left; reflexivity].
    + intros H. apply SO in H as [H|H]; [discriminate H|auto|discriminate].
  - destruct (x_tok x <? 1) eqn:TK; injection S as <-; [|exact I]. set (x1 := XState _ _ _ _ _ _ _). pose proof (fun f => someone_at f x x1 t _ XCancelled N eq_refl) as SO. pose proof (fun f => is_at f x x1 t _ XCancelled N eq_refl) as IS.
    destruct I as [I1 I2 I3 I4 I5 I6 I7 I8 I9]. assert (LT : x_lock x = Some t) by (apply I1; apply (is_here _ _ _ _ N); reflexivity). constructor; cbn [x_lock x_stat x_con x_ac x_tok x_closes x1].
    + intros u H. apply IS in H as [[-> _]|[_ H]]; auto.
    + intros u H. rewrite LT in H. injection H as <-. apply IS. left. auto.
    + rewrite SO by reflexivity. cbn. rewrite <- I3. split; [intros _|auto]. exists t, XConClosed. auto.
    + intros u v H G. assert (HT : is past_con x t) by (apply (is_here _ _ _ _ N); reflexivity). apply IS in H as [[-> _]|[_ H]]; apply IS in G as [[-> _]|[_ G]]; auto.
    + rewrite SO by discriminate. cbn. rewrite I5. intuition discriminate.
    + exact I6.
    + split; [lia|]. intros _. apply SO; [discriminate|]. left. reflexivity.
    + rewrite SO by reflexivity. cbn. destruct I8 as [[_ Y]|[E _]]; [exfalso; apply Y; exists t, XConClosed; auto|]. right. split; [exact E|left; reflexivity].
    + intros H. apply SO in H as [H|H]; [discriminate H|auto|discriminate].
  - injection S as <-. set (x1 := XState _ _ _ _ _ _ _). pose proof (fun f => someone_at f x x1 t _ XCleared N eq_refl) as SO. pose proof (fun f => is_at f x x1 t _ XCleared N eq_refl) as IS.
    destruct I as [I1 I2 I3 I4 I5 I6 I7 I8 I9]. assert (LT : x_lock x = Some t) by (apply I1; apply (is_here _ _ _ _ N); reflexivity). constructor; cbn [x_lock x_stat x_con x_ac x_tok x_closes x1].
    + intros u H. apply IS in H as [[-> _]|[_ H]]; auto.
    + intros u H. rewrite LT in H. injection H as <-. apply IS. left. auto.
    + rewrite SO by reflexivity. cbn. rewrite <- I3. split; [intros _|auto]. exists t, XCancelled. auto.
    + intros u v H G. assert (HT : is past_con x t) by (apply (is_here _ _ _ _ N); reflexivity). apply IS in H as [[-> _]|[_ H]]; apply IS in G as [[-> _]|[_ G]]; auto.
    + rewrite SO by reflexivity. cbn. intuition.
    + reflexivity.
    + rewrite SO by reflexivity. cbn. intuition.
    + rewrite SO by reflexivity. cbn. destruct I8 as [[_ Y]|[E _]]; [exfalso; apply Y; exists t, XCancelled; auto|]. right. split; [exact E|left; reflexivity].
    + intros H. apply SO in H as [H|H]; [discriminate H|auto|discriminate].
  - injection S as <-. set (x1 := XState _ _ _ _ _ _ _). pose proof (fun f => someone_at f x x1 t _ XDone N eq_refl) as SO. pose proof (fun f => is_at f x x1 t _ XDone N eq_refl) as IS.
    destruct I as [I1 I2 I3 I4 I5 I6 I7 I8 I9]. assert (LT : x_lock x = Some t) by (apply I1; apply (is_here _ _ _ _ N); reflexivity). constructor; cbn [x_lock x_stat x_con x_ac x_tok x_closes x1].
    + intros u H. apply IS in H as [[-> H]|[NE H]]; [discriminate H|]. apply I1 in H. congruence.
    + discriminate.
    + rewrite SO by reflexivity. cbn. rewrite <- I3. split; [intros _|auto]. exists t, XCleared. auto.
    + intros u v H G. assert (HT : is past_con x t) by (apply (is_here _ _ _ _ N); reflexivity). apply IS in H as [[-> _]|[_ H]]; apply IS in G as [[-> _]|[_ G]]; auto.
    + rewrite SO by reflexivity. cbn. rewrite I5. split; [auto|intros _]. exists t, XCleared. auto.
    + exact I6.
    + rewrite SO by reflexivity. cbn. intuition.
    + rewrite SO by reflexivity. cbn. destruct I8 as [[_ Y]|[E _]]; [exfalso; apply Y; exists t, XCleared; auto|]. right. split; [exact E|left; reflexivity].
    + intros H. apply SO in H as [H|H]; [discriminate H|auto|discriminate].
  - injection S as <-. exact I.
  - injection S as <-. exact I.
Qed.
Lemma xinv_run es : forall x x1, xinv x -> xrun x es = Ok x1 -> xinv x1.
Proof. induction es as [|e es IH]; intros x x1 I H; cbn [xrun] in H; [injection H as <-; exact I|]. apply bind_ok in H as (y & S & H). eapply IH; [|exact H]. eapply xinv_step; eassumption. Qed.
Lemma closing_stays es : forall x x1, x_stat x = CClosing -> xrun x es = Ok x1 -> x_stat x1 = CClosing.
Proof.
  induction es as [|e es IH]; intros x x1 C H; cbn [xrun] in H; [injection H as <-; exact C|]. apply bind_ok in H as (y & S & H). apply (IH y); [|exact H]. clear IH H.
  unfold xstep in S. destruct e as [t|]; [destruct (nth_error (x_ph x) t) as [[]|]|]; try rewrite C in S; try (injection S as <-; auto; fail).
  - destruct (x_lock x); injection S as <-; auto.
  - destruct (x_con x); [injection S as <-; auto|discriminate S].
  - destruct (x_tok x <? 1); injection S as <-; auto.
  - destruct (0 <? x_tok x); injection S as <-; auto.
Qed.
(** Every interleaving, up to a possible crash: the connection is closed at most once; from the
    moment one goroutine has marked the session it is never healthy again. *)
Theorem C62_once : forall login n es1 es2 x1 x2, xrun (xstart login n) es1 = Ok x1 -> xrun x1 es2 = Ok x2 ->
  x_closes x2 <= 1 /\ (someone past_mark x1 -> xhealthy x2 = false).
Proof.
  intros login n es1 es2 x1 x2 H1 H2. pose proof (xinv_run _ _ _ (xinv_start login n) H1) as I1. pose proof (xinv_run _ _ _ I1 H2) as I2. split.
  - destruct (xi_closes _ I2) as [[-> _]|[-> _]]; lia.
  - intros M. apply (xi_mark _ I1) in M. unfold xhealthy. rewrite (closing_stays es2 x1 x2 M H2). reflexivity.
Qed.
(** No interleaving gets stuck: as long as a goroutine has not returned, one can go on. *)
Theorem C62_progress : forall login n es x, xrun (xstart login n) es = Ok x ->
  someone (fun p => match p with XSkipped | XDone => false | _ => true end) x -> exists t, xstep x (XStep t) <> Ok x.
Proof.
  intros login n es x H (t & p & N & F). pose proof (xinv_run _ _ _ (xinv_start login n) H) as I.
  assert (PH : forall u a b, nth_error (x_ph x) u = Some a -> a <> b -> x_ph x <> at_phase x u b).
  { intros u a b Nu NE E. assert (L : (u < length (x_ph x))%nat) by (apply nth_error_Some; congruence). pose proof (phase_at x u b u L) as X. rewrite <- E, Nat.eqb_refl in X. congruence. }
  destruct (x_lock x) as [u|] eqn:LK.
  - destruct (xi_held _ I u LK) as (a & Nu & IN). exists u. intros E. cbn [xstep] in E. rewrite Nu in E. destruct a; try discriminate IN.
    + apply (PH u _ XMarked Nu); [discriminate|]. apply (f_equal (fun r => match r with Ok y => x_ph y | _ => [] end)) in E. symmetry. exact E.
    + destruct (x_con x) eqn:CN; [|discriminate E]. apply (PH u _ XConClosed Nu); [discriminate|]. apply (f_equal (fun r => match r with Ok y => x_ph y | _ => [] end)) in E. symmetry. exact E.
    + assert (T : x_tok x <? 1 = true). { destruct (Z.ltb_spec (x_tok x) 1) as [|G]; [reflexivity|]. exfalso. destruct (xi_tok _ I) as [_ T]. destruct (T ltac:(lia)) as (v & q & Nv & Q).
        assert (v = u) by (apply (xi_one _ I); [exists q; split; [exact Nv|destruct q; try discriminate; reflexivity]|exists XConClosed; auto]). subst. rewrite Nu in Nv. injection Nv as <-. discriminate Q. }
      rewrite T in E. apply (PH u _ XCancelled Nu); [discriminate|]. apply (f_equal (fun r => match r with Ok y => x_ph y | _ => [] end)) in E. symmetry. exact E.
    + apply (PH u _ XCleared Nu); [discriminate|]. apply (f_equal (fun r => match r with Ok y => x_ph y | _ => [] end)) in E. symmetry. exact E.
    + apply (PH u _ XDone Nu); [discriminate|]. apply (f_equal (fun r => match r with Ok y => x_ph y | _ => [] end)) in E. symmetry. exact E.
  - exists t. intros E. assert (NI : inside p = false). { destruct (inside p) eqn:Q; [|reflexivity]. assert (x_lock x = Some t) by (apply (xi_lock _ I); exists p; auto). congruence. }
    cbn [xstep] in E. rewrite N in E. destruct p; try discriminate NI; try discriminate F.
    + destruct (x_stat x) eqn:ST; [apply (PH t _ XPassed N)|apply (PH t _ XPassed N)|apply (PH t _ XSkipped N)]; try discriminate; apply (f_equal (fun r => match r with Ok y => x_ph y | _ => [] end)) in E; symmetry; exact E.
    + rewrite LK in E. apply (PH t _ XLocked N); [discriminate|]. apply (f_equal (fun r => match r with Ok y => x_ph y | _ => [] end)) in E. symmetry. exact E.
Qed.
(** The claim, when no goroutine looks at the status while another is between its own look and its
    mark (in particular when the calls come one after the other): it never crashes, and when all
    have returned the connection is closed exactly once. *)
Definition no_overlap (x0 : xstate) (es : list xevent) : Prop :=
  forall es1 t es2 x, es = es1 ++ XStep t :: es2 -> xrun x0 es1 = Ok x -> nth_error (x_ph x) t = Some XIdle -> ~ someone in_window x.
Lemma xrun_app es : forall x fs, xrun x (es ++ fs) = (y <- xrun x es ;; xrun y fs).
Proof. induction es as [|e es IH]; intros x fs; [reflexivity|]. cbn [app xrun]. destruct (xstep x e); cbn [bind]; auto. Qed.
Lemma one_passes login n es : no_overlap (xstart login n) es ->
  exists x, xrun (xstart login n) es = Ok x /\ xinv x /\ (forall t u, is past_check x t -> is past_check x u -> t = u) /\ length (x_ph x) = n.
Proof.
  induction es as [|e es IH] using rev_ind; intros NO.
  - exists (xstart login n). split; [reflexivity|]. split; [apply xinv_start|]. cbn [xstart x_ph]. split; [|apply repeat_length].
    intros t u (p & H & F). exfalso. apply nth_error_In in H. apply repeat_spec in H. subst. discriminate F.
  - destruct IH as (x & R & I & ONE & LEN).
    { intros es1 t es2 x E. apply (NO es1 t (es2 ++ [e]) x). rewrite E, <- app_assoc. reflexivity. }
    assert (W : forall t, e = XStep t -> nth_error (x_ph x) t = Some XIdle -> ~ someone in_window x) by (intros t ->; apply (NO es t [] x eq_refl R)). clear NO.
    assert (X : exists y, xstep x e = Ok y).
    { destruct e as [t|]; cbn [xstep]; [|destruct (0 <? x_tok x); eauto]. destruct (nth_error (x_ph x) t) as [[]|] eqn:N; eauto; try (destruct (x_stat x); eauto; fail); try (destruct (x_lock x); eauto; fail); try (destruct (x_tok x <? 1); eauto; fail).
      destruct (x_con x) eqn:CN; [eauto|]. exfalso. apply (xi_con _ I) in CN as (u & p & Nu & P). assert (u = t) by (apply ONE; [exists p; split; [exact Nu|destruct p; try discriminate; reflexivity]|exists XMarked; auto]).
      subst. rewrite N in Nu. injection Nu as <-. discriminate P. }
    destruct X as (y & S). exists y. rewrite xrun_app, R. cbn [bind xrun]. rewrite S. split; [reflexivity|]. split; [eapply xinv_step; eassumption|].
    destruct e as [t|]; cbn [xstep] in S; [|destruct (0 <? x_tok x); injection S as <-; split; assumption].
    destruct (nth_error (x_ph x) t) as [a|] eqn:N; [|injection S as <-; split; assumption].
    assert (STEP : (y = x) \/ exists b, x_ph y = at_phase x t b /\ (past_check b = true -> past_check a = true \/ (a = XIdle /\ x_stat x <> CClosing))).
    { destruct a; try (injection S as <-; right; eexists; split; [reflexivity|auto]; fail); try (injection S as <-; left; reflexivity).
      - destruct (x_stat x) eqn:ST; injection S as <-; right; eexists; (split; [reflexivity|]); intros Q; try discriminate Q; right; split; congruence.
      - destruct (x_lock x); injection S as <-; [left; reflexivity|right; eexists; split; [reflexivity|auto]].
      - destruct (x_con x); [|discriminate S]. injection S as <-. right. eexists. split; [reflexivity|auto].
      - destruct (x_tok x <? 1); injection S as <-; [right; eexists; split; [reflexivity|auto]|left; reflexivity]. }
    destruct STEP as [->|(b & PB & CB)]; [split; assumption|]. split; [|rewrite PB, phase_len by (apply nth_error_Some; congruence); exact LEN].
    pose proof (is_at past_check x y t a b N PB) as IS.
    assert (EX : past_check b = true -> forall v, v <> t -> ~ is past_check x v).
    { intros Q v NE (p & Nv & P). destruct (CB Q) as [Q'|[-> NC]]; [apply NE; apply ONE; [exists p; auto|exists a; auto]|].
      destruct (in_window p) eqn:IW; [apply (W t eq_refl N); exists v, p; auto|]. apply NC. apply (xi_mark _ I). exists v, p. split; [exact Nv|destruct p; try discriminate; reflexivity]. }
    intros u v HU HV. apply IS in HU as [[-> QU]|[NU HU]]; apply IS in HV as [[-> QV]|[NV HV]].
    + reflexivity.
    + exfalso. exact (EX QU v NV HV).
    + exfalso. exact (EX QV u NU HU).
    + apply ONE; assumption.
Qed.
Theorem C62_partial : forall login n es, no_overlap (xstart login n) es ->
  exists x, xrun (xstart login n) es = Ok x /\ x_closes x <= 1
    /\ ((0 < n)%nat -> (forall t, (t < n)%nat -> nth_error (x_ph x) t = Some XSkipped \/ nth_error (x_ph x) t = Some XDone) ->
        x_closes x = 1 /\ x_con x = false /\ xhealthy x = false /\ x_lock x = None).
Proof.
  intros login n es NO. destruct (one_passes login n es NO) as (x & R & I & ONE & LEN). exists x. split; [exact R|]. split; [destruct (xi_closes _ I) as [[-> _]|[-> _]]; lia|].
  intros N ALL. assert (CL : x_stat x = CClosing).
  { destruct (ALL 0%nat N) as [H|H]; [apply (xi_skipped _ I)|apply (xi_mark _ I)]; eexists; eexists; (split; [exact H|reflexivity]). }
  apply (xi_mark _ I) in CL as CM. destruct CM as (t & p & H & P). assert (T : (t < n)%nat) by (rewrite <- LEN; apply nth_error_Some; congruence).
  assert (p = XDone) as -> by (destruct (ALL t T) as [X|X]; rewrite H in X; injection X as ->; [discriminate P|reflexivity]).
  split; [destruct (xi_closes _ I) as [[_ X]|[X _]]; [exfalso; apply X; exists t, XDone; auto|exact X]|]. split; [apply (xi_con _ I); exists t, XDone; auto|].
  split; [unfold xhealthy; rewrite CL; reflexivity|]. destruct (x_lock x) as [u|] eqn:LK; [|reflexivity]. exfalso. destruct (xi_held _ I u LK) as (a & Nu & IN).
  assert (U : (u < n)%nat) by (rewrite <- LEN; apply nth_error_Some; congruence). destruct (ALL u U) as [X|X]; rewrite Nu in X; injection X as ->; discriminate IN.
Qed.
(** Overlapping closes crash: two goroutines that both got past the check never both return, and
    for any number of goroutines there is a schedule that ends in the crash. *)
Theorem C62_refuted_overlap : forall login n es x t u, xrun (xstart login n) es = Ok x -> nth_error (x_ph x) t = Some XDone -> nth_error (x_ph x) u = Some XDone -> t = u.
Proof. intros login n es x t u H T U. pose proof (xinv_run _ _ _ (xinv_start login n) H) as I. apply (xi_one _ I); eexists; (split; [eassumption|reflexivity]). Qed.
Theorem C62_refuted : forall login n, (2 <= n)%nat -> exists es, xrun (xstart login n) es = Panic.
Proof.
  intros login [|[|n]] N; [lia|lia|]. exists ([XStep 0; XStep 1] ++ repeat (XStep 0) 6 ++ repeat (XStep 1) 3). destruct login; reflexivity.
Qed.
(** Three closes one after the other, the receiver taking the signal in between. *)
Example C62_case :
  match xrun (xstart true 3) (repeat (XStep 1) 7 ++ [XReceive] ++ [XStep 0] ++ [XStep 2]) with
  | Ok x => x_ph x = [XSkipped; XDone; XSkipped] /\ x_closes x = 1 /\ xhealthy (xstart true 3) = true /\ xhealthy x = false
  | _ => False
  end.
Proof. vm_compute. repeat split. Qed.
Print Assumptions C62_once.
Print Assumptions C62_progress.
Print Assumptions C62_partial.
Print Assumptions C62_refuted_overlap.
Print Assumptions C62_refuted.
