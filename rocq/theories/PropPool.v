(** * PropPool: property C54 (the connection limit and the session count). *)
From Coq Require Import Sorting.Permutation.
From Verif Require Import Base UtilsModel OptionsModel SpecText FrameModel SpecServer ServerModel ServerProofs PropServer PropWindow PoolModel.

(** ** C54: the session counter *)
Definition busy (l : lstate) : bool := match l with LIdle => false | _ => true end.
Definition is_create (l : lstate) : bool := match l with LCreate => true | _ => false end.
Definition is_add (l : lstate) : bool := match l with LAdd _ => true | _ => false end.
Definition is_sub (l : lstate) : bool := match l with LSub _ => true | _ => false end.
Definition quiescent (p : pool) : Prop := forall l, In l (po_loops p) -> l = LIdle.
(** In a serial run OnOpen and OnClose of different connections do not overlap. *)
Fixpoint serial (p : pool) (es : list pevent) : Prop :=
  count busy (po_loops p) <= 1 /\
  match es with [] => True | e :: r => match pstep p e with Ok p1 => serial p1 r | _ => True end end.

Definition fresh (p : pool) : Prop := NoDup (map fst (po_sess p)) /\ forall x, In x (po_sess p) -> fst x < po_next p.
Definition exact (p : pool) : Prop :=
  fresh p /\ po_cnt p = zlen (po_sess p) - count is_add (po_loops p) + count is_sub (po_loops p) /\
  (forall v, In (LAdd v) (po_loops p) \/ In (LSub v) (po_loops p) -> v = po_cnt p).

Lemma remove_one l s : NoDup (map fst l) -> (exists i, In (s, i) l) -> zlen (filter (fun x : Z * nat => negb (fst x =? s)) l) = zlen l - 1.
Proof.
  induction l as [|[a j] l IH]; intros ND [i Hi]; [destruct Hi|]. cbn [map fst] in ND. inversion ND as [|? ? N1 N2]; subst. cbn [filter fst].
  destruct (a =? s) eqn:E; cbn [negb].
  - apply Z.eqb_eq in E. subst a. assert (F : filter (fun x : Z * nat => negb (fst x =? s)) l = l).
    { clear -N1. induction l as [|[b k] l IH]; [reflexivity|]. cbn [filter fst map In] in *. destruct (b =? s) eqn:E; cbn [negb]; [exfalso; apply N1; left; lia|]. f_equal. apply IH. intros H. apply N1. right. exact H. }
    rewrite F. unfold zlen. cbn [length]. lia.
  - destruct Hi as [Hi|Hi]; [injection Hi; lia|]. assert (X := IH N2 (ex_intro _ i Hi)). unfold zlen in *. cbn [length]. lia.
Qed.
Lemma fresh_filter f l : NoDup (map fst l) -> NoDup (map fst (filter f l : list (Z * nat))).
Proof.
  induction l as [|a l IH]; intros H; [constructor|]. cbn [map] in H. inversion H as [|? ? H1 H2]; subst. cbn [filter]. destruct (f a); [|auto].
  cbn [map]. constructor; [|auto]. intros X. apply H1. apply in_map_iff in X as (y & E & Y). apply filter_In in Y as [Y _]. rewrite <- E. apply in_map. exact Y.
Qed.
Lemma fresh_step p e p' : fresh p -> pstep p e = Ok p' -> fresh p'.
Proof.
  intros [A B] E. destruct e as [i|i|i|i s|i]; cbn [pstep] in E; destruct (nth_error (po_loops p) i) as [[| |v|v]|]; try (injection E as <-; split; assumption).
  - destruct (_ <=? _); [destruct (po_calls p); [discriminate|]|]; injection E as <-; split; assumption.
  - destruct (po_lock p); injection E as <-; [split; assumption|]. split; cbn [po_sess po_next].
    + rewrite map_app. cbn [map fst].
      assert (X : NoDup (po_next p :: map fst (po_sess p))).
      { constructor; [|exact A]. intros H. apply in_map_iff in H as (x & E & H). apply B in H. lia. }
      apply (Permutation_NoDup (l := po_next p :: map fst (po_sess p))); [|exact X]. apply Permutation_cons_append.
    + intros x Hx. apply in_app_or in Hx as [Hx|[<-|[]]]; [apply B in Hx; lia|cbn; lia].
  - destruct (existsb _ _); injection E as <-; [|split; assumption]. split; cbn [po_sess po_next]; [apply fresh_filter, A|]. intros x Hx. apply filter_In in Hx as [Hx _]. auto.
Qed.
Lemma in_close s i l : existsb (fun x : Z * nat => (fst x =? s) && Nat.eqb (snd x) i) l = true -> exists j, In (s, j) l.
Proof. intros H. apply existsb_exists in H as ([a j] & H & E). cbn [fst snd] in E. apply andb_prop in E as [E _]. apply Z.eqb_eq in E. subst a. eauto. Qed.

Lemma idle_after l i x : nth_error l i = Some x -> busy x = true -> count busy l <= 1 -> forall y, In y (upd l i LIdle) -> y = LIdle.
Proof.
  intros N B C y Hy. assert (Z0 : count busy (upd l i LIdle) = 0).
  { pose proof (count_upd busy l i x LIdle N) as X. rewrite B in X. cbn [busy] in X. pose proof (count_nonneg busy (upd l i LIdle)). lia. }
  rewrite count_zero in Z0. specialize (Z0 y Hy). destruct y; try discriminate. reflexivity.
Qed.
Lemma exact_step p e p' : exact p -> count busy (po_loops p) <= 1 -> pstep p e = Ok p' -> exact p'.
Proof.
  intros (F & A & B) S E. pose proof (fresh_step p e p' F E) as F'. split; [exact F'|]. clear F'. destruct F as [F _].
  destruct e as [i|i|i|i s|i]; cbn [pstep] in E; destruct (nth_error (po_loops p) i) as [[| |v|v]|] eqn:N; try (injection E as <-; split; assumption).
  - destruct (_ <=? _); [destruct (po_calls p); [discriminate|]; injection E as <-; split; assumption|]. injection E as <-. cbn [set_loop po_cnt po_sess po_loops].
    rewrite !(count_upd _ _ _ _ _ N). cbn [is_add is_sub]. split; [lia|]. intros v [H|H]; apply (in_upd _ _ _ _ _ N) in H as [H|H]; try discriminate; auto.
  - destruct (po_lock p); injection E as <-; [split; assumption|]. cbn [po_cnt po_sess po_loops]. rewrite !(count_upd _ _ _ _ _ N). cbn [is_add is_sub].
    unfold zlen in *. rewrite app_length. cbn [length]. split; [lia|]. intros v [H|H]; apply (in_upd _ _ _ _ _ N) in H as [H|H]; try discriminate; auto. congruence.
  - injection E as <-. cbn [po_cnt po_sess po_loops]. rewrite !(count_upd _ _ _ _ _ N). cbn [is_add is_sub].
    assert (V : v = po_cnt p) by (apply B; left; eapply nth_error_In; eauto). split; [lia|].
    intros w [H|H]; apply (idle_after _ _ _ N eq_refl S) in H; discriminate.
  - destruct (existsb _ _) eqn:X; injection E as <-; [|split; assumption]. cbn [po_cnt po_sess po_loops]. rewrite !(count_upd _ _ _ _ _ N). cbn [is_add is_sub].
    rewrite (remove_one _ _ F (in_close _ _ _ X)). split; [lia|]. intros v [H|H]; apply (in_upd _ _ _ _ _ N) in H as [H|H]; try discriminate; auto. congruence.
  - injection E as <-. cbn [po_cnt po_sess po_loops]. rewrite !(count_upd _ _ _ _ _ N). cbn [is_add is_sub].
    assert (V : v = po_cnt p) by (apply B; right; eapply nth_error_In; eauto). split; [lia|].
    intros w [H|H]; apply (idle_after _ _ _ N eq_refl S) in H; discriminate.
Qed.
(** What the counter will be when all pending openings are through stays within the limit. *)
Definition within (p : pool) : Prop := 0 <= po_cap p /\ po_cnt p + count is_create (po_loops p) + count is_add (po_loops p) <= po_cap p.
Lemma within_step p e p' : exact p -> within p -> count busy (po_loops p) <= 1 -> count busy (po_loops p') <= 1 -> pstep p e = Ok p' -> within p'.
Proof.
  intros (F & A & B) (C & W) S S' E. destruct e as [i|i|i|i s|i]; cbn [pstep] in E; destruct (nth_error (po_loops p) i) as [[| |v|v]|] eqn:N; try (injection E as <-; split; assumption).
  - destruct (_ <=? _) eqn:L; [destruct (po_calls p); [discriminate|]; injection E as <-; split; assumption|]. injection E as <-. split; [exact C|]. cbn [set_loop po_cnt po_loops po_cap] in *.
    assert (Z0 : count is_create (po_loops p) + count is_add (po_loops p) = 0).
    { rewrite (count_upd _ _ _ _ _ N) in S'. cbn [busy] in S'. assert (X : count busy (po_loops p) = 0) by (pose proof (count_nonneg busy (po_loops p)); lia).
      rewrite count_zero in X. assert (Y : forall f, f LIdle = false -> count f (po_loops p) = 0).
      { intros f Hf. apply count_zero. intros x Hx. specialize (X x Hx). destruct x; try discriminate. exact Hf. }
      rewrite !Y by reflexivity. reflexivity. }
    rewrite !(count_upd _ _ _ _ _ N). cbn [is_add is_create]. lia.
  - destruct (po_lock p); injection E as <-; [split; assumption|]. split; [exact C|]. cbn [po_cnt po_loops po_cap]. rewrite !(count_upd _ _ _ _ _ N). cbn [is_add is_create]. lia.
  - injection E as <-. split; [exact C|]. cbn [po_cnt po_loops po_cap]. assert (V : v = po_cnt p) by (apply B; left; eapply nth_error_In; eauto).
    rewrite !(count_upd _ _ _ _ _ N). cbn [is_add is_create]. lia.
  - destruct (existsb _ _) eqn:X; injection E as <-; [|split; assumption]. split; [exact C|]. cbn [po_cnt po_loops po_cap]. rewrite !(count_upd _ _ _ _ _ N). cbn [is_add is_create]. lia.
  - injection E as <-. split; [exact C|]. cbn [po_cnt po_loops po_cap]. assert (V : v = po_cnt p) by (apply B; right; eapply nth_error_In; eauto).
    rewrite !(count_upd _ _ _ _ _ N). cbn [is_add is_create]. lia.
Qed.
Lemma cap_step p e p' : pstep p e = Ok p' -> po_cap p' = po_cap p /\ po_calls p' = po_calls p /\ length (po_loops p') = length (po_loops p).
Proof.
  intros E. assert (U : forall i x l, nth_error (po_loops p) i = Some x -> length (upd (po_loops p) i l) = length (po_loops p)) by (intros i x l N; apply length_upd, nth_error_Some; congruence).
  destruct e as [i|i|i|i s|i]; cbn [pstep] in E; destruct (nth_error (po_loops p) i) as [[| |v|v]|] eqn:N;
  repeat match type of E with (if ?b then _ else _) = _ => destruct b eqn:? end; try discriminate E; injection E as <-; auto;
  cbn [set_loop po_loops po_cap po_calls]; try (rewrite (U _ _ _ N)); auto.
Qed.
Lemma idle_count f n : f LIdle = false -> count f (repeat LIdle n) = 0.
Proof. intros H. apply count_zero. intros x Hx. apply repeat_spec in Hx. subst x. exact H. Qed.
Lemma exact_start cap calls n : exact (pstart cap calls n).
Proof.
  split; [split; [constructor|intros x []]|]. cbn [pstart po_cnt po_sess po_loops]. rewrite !idle_count by reflexivity. split; [reflexivity|].
  intros v [H|H]; apply repeat_spec in H; discriminate.
Qed.
Lemma serial_run es : forall p p', exact p -> within p -> serial p es -> prun p es = Ok p' -> exact p' /\ within p' /\ po_cap p' = po_cap p.
Proof.
  induction es as [|e es IH]; intros p p' X W S E; cbn [prun serial] in *; [injection E as <-; auto|].
  apply bind_ok in E as (p1 & E1 & E2). destruct S as [S1 S2]. rewrite E1 in S2.
  assert (S3 : count busy (po_loops p1) <= 1) by (destruct es; apply S2).
  destruct (IH p1 p') as (A & B & C); auto.
  - eapply exact_step; eauto.
  - eapply within_step; eauto.
  - split; [exact A|]. split; [exact B|]. rewrite C. apply (cap_step p e p1 E1).
Qed.
(** If openings and closings do not overlap, the counter is the number of sessions whenever no
    handler is running, and the limit holds at every moment. *)
Theorem C54_partial : forall cap calls loops es p, 0 <= cap -> serial (pstart cap calls loops) es -> prun (pstart cap calls loops) es = Ok p ->
  zlen (po_sess p) <= cap /\ po_cnt p <= cap /\ (quiescent p -> po_cnt p = zlen (po_sess p)).
Proof.
  intros cap calls loops es p HC S E. assert (W : within (pstart cap calls loops)).
  { split; [exact HC|]. cbn [pstart po_cnt po_loops po_cap]. rewrite !idle_count by reflexivity. lia. }
  destruct (serial_run es _ _ (exact_start cap calls loops) W S E) as ((F & A & B) & (_ & W') & C). cbn [pstart po_cap] in C.
  pose proof (count_nonneg is_create (po_loops p)). pose proof (count_nonneg is_add (po_loops p)). pose proof (count_nonneg is_sub (po_loops p)).
  split; [lia|]. split; [lia|]. intros Q. assert (Y : forall f, f LIdle = false -> count f (po_loops p) = 0).
  { intros f Hf. apply count_zero. intros x Hx. rewrite (Q x Hx). exact Hf. }
  rewrite A, !Y by reflexivity. lia.
Qed.
(** A server with one event loop has only serial runs. *)
Theorem C54_one_loop : forall cap calls es, serial (pstart cap calls 1) es.
Proof.
  intros cap calls es. assert (G : forall p, length (po_loops p) = 1%nat -> serial p es).
  { induction es as [|e es IH]; intros p L; cbn [serial]; (split; [|try exact I]).
    - destruct (po_loops p) as [|x [|y l]]; try discriminate L. rewrite count_one. destruct (busy x); lia.
    - destruct (po_loops p) as [|x [|y l]]; try discriminate L. rewrite count_one. destruct (busy x); lia.
    - destruct (pstep p e) as [p1| |] eqn:E; auto. apply IH. destruct (cap_step p e p1 E) as (_ & _ & ->). exact L. }
  apply G. reflexivity.
Qed.

(** ** Overlapping handlers *)
Definition no_close (e : pevent) : Prop := match e with PClose _ _ => False | _ => True end.
Definition opening (p : pool) : Prop :=
  fresh p /\ po_cnt p = zlen (po_sess p) - count is_add (po_loops p) /\ count is_sub (po_loops p) = 0 /\
  count is_add (po_loops p) = (if po_lock p then 1 else 0) /\ (forall v, In (LAdd v) (po_loops p) -> v = po_cnt p) /\
  po_cnt p + count is_create (po_loops p) + count is_add (po_loops p) <= po_cap p + zlen (po_loops p) - 1.
Lemma count_split l : count is_create l + count is_add l <= count busy l.
Proof. induction l as [|x l IH]; [reflexivity|]. rewrite !count_cons. destruct x; cbn [is_create is_add busy]; lia. Qed.
Lemma count_len {A} (f : A -> bool) l : count f l <= zlen l.
Proof. unfold count, zlen. induction l as [|x l IH]; [reflexivity|]. cbn [filter]. destruct (f x); cbn [length]; lia. Qed.
Lemma opening_step p e p' : opening p -> no_close e -> pstep p e = Ok p' -> opening p'.
Proof.
  intros (F & A & U & K & V & W) NC E. pose proof (fresh_step p e p' F E) as F'. pose proof (cap_step p e p' E) as (CP & _ & LL). split; [exact F'|]. rewrite CP. unfold zlen at 2. rewrite LL. fold (zlen (po_loops p)). clear F'.
  destruct e as [i|i|i|i s|i]; cbn [pstep] in E; try destruct NC; destruct (nth_error (po_loops p) i) as [[| |v|v]|] eqn:N; try (injection E as <-; repeat split; assumption).
  - destruct (_ <=? _) eqn:L; [destruct (po_calls p); [discriminate|]; injection E as <-; repeat split; assumption|]. injection E as <-. cbn [set_loop po_cnt po_sess po_loops po_lock].
    rewrite !(count_upd _ _ _ _ _ N). cbn [is_add is_sub is_create]. split; [lia|]. split; [lia|]. split; [lia|]. split.
    + intros v H. apply (in_upd _ _ _ _ _ N) in H as [H|H]; try discriminate; auto.
    + pose proof (count_split (po_loops p)). assert (X : count busy (po_loops p) <= zlen (po_loops p) - 1).
      { pose proof (count_upd busy (po_loops p) i LIdle LCreate N) as Y. cbn [busy] in Y. pose proof (count_len busy (upd (po_loops p) i LCreate)) as Z1.
        unfold zlen in Z1. rewrite length_upd in Z1 by (apply nth_error_Some; congruence). unfold zlen. lia. }
      lia.
  - destruct (po_lock p) eqn:LK; injection E as <-; [rewrite LK; repeat split; assumption|]. cbn [po_cnt po_sess po_loops po_lock]. rewrite !(count_upd _ _ _ _ _ N). cbn [is_add is_sub is_create].
    unfold zlen in *. rewrite app_length. cbn [length]. split; [lia|]. split; [lia|]. split; [lia|]. split; [|lia].
    intros v H. apply (in_upd _ _ _ _ _ N) in H as [H|H]; auto. congruence.
  - injection E as <-. cbn [po_cnt po_sess po_loops po_lock]. assert (X : v = po_cnt p) by (apply V; eapply nth_error_In; eauto).
    assert (G : 1 <= count is_add (po_loops p)).
    { pose proof (count_upd is_add (po_loops p) i _ LIdle N) as Y. cbn [is_add] in Y. pose proof (count_nonneg is_add (upd (po_loops p) i LIdle)). lia. }
    destruct (po_lock p); [|lia]. rewrite !(count_upd _ _ _ _ _ N). cbn [is_add is_sub is_create]. split; [lia|]. split; [lia|]. split; [lia|]. split; [|lia].
    intros w H. assert (Z0 : count is_add (upd (po_loops p) i LIdle) = 0) by (rewrite (count_upd _ _ _ _ _ N); cbn [is_add]; lia). rewrite count_zero in Z0. specialize (Z0 _ H). discriminate.
  - exfalso. pose proof (count_upd is_sub (po_loops p) i _ LIdle N) as Y. cbn [is_sub] in Y. pose proof (count_nonneg is_sub (upd (po_loops p) i LIdle)). lia.
Qed.
(** As long as no connection is closed, overlapping openings keep the count exact (CreateSession
    holds the lock), and exceed the limit by fewer than the number of loops. *)
Theorem C54_openings_partial : forall cap calls loops es p, 0 <= cap -> (1 <= loops)%nat -> Forall no_close es -> prun (pstart cap calls loops) es = Ok p ->
  zlen (po_sess p) <= cap + Z.of_nat loops - 1 /\ (quiescent p -> po_cnt p = zlen (po_sess p)).
Proof.
  intros cap calls loops es p HC HL F E. assert (O : opening (pstart cap calls loops)).
  { pose proof (exact_start cap calls loops) as (A & _ & B). split; [exact A|]. cbn [pstart po_cnt po_sess po_loops po_cap po_lock] in *. rewrite !idle_count by reflexivity.
    split; [reflexivity|]. split; [reflexivity|]. split; [reflexivity|]. split; [intros v H; apply B; auto|]. unfold zlen. rewrite repeat_length. lia. }
  assert (G : forall es p0 p, Forall no_close es -> opening p0 -> prun p0 es = Ok p -> opening p /\ po_cap p = po_cap p0 /\ length (po_loops p) = length (po_loops p0)).
  { clear. induction es as [|e es IH]; intros p0 p F O E; cbn [prun] in E; [injection E as <-; auto|]. apply bind_ok in E as (p1 & E1 & E2).
    destruct (cap_step p0 e p1 E1) as (C & _ & L). destruct (IH p1 p) as (X & Y & Z1); auto; [exact (Forall_inv_tail F)|eapply opening_step; eauto; exact (Forall_inv F)|].
    split; [exact X|]. split; congruence. }
  destruct (G es _ p F O E) as ((_ & A & U & K & V & W) & C & L). cbn [pstart po_cap po_loops] in C, L. rewrite repeat_length in L.
  pose proof (count_nonneg is_create (po_loops p)). pose proof (count_nonneg is_add (po_loops p)). unfold zlen in *. split; [lia|].
  intros Q. assert (Y : count is_add (po_loops p) = 0) by (apply count_zero; intros x Hx; rewrite (Q x Hx); reflexivity). lia.
Qed.
Definition open_ev (i : nat) : list pevent := [PCheck i; PCreate i; PAdd i].
Definition filled (n : nat) : list (Z * nat) := map (fun k => (Z.of_nat k + 1, 0%nat)) (seq 0 n).
Lemma prun_app a b p p1 : prun p a = Ok p1 -> prun p (a ++ b) = prun p1 b.
Proof. revert p. induction a as [|e a IH]; intros p E; cbn [app prun] in *; [congruence|]. apply bind_ok in E as (p2 & E1 & E2). rewrite E1. cbn [bind]. auto. Qed.
Lemma open_one cap calls c s x m : c < cap -> prun (Pool cap calls c s x (LIdle :: m) false) (open_ev 0) = Ok (Pool cap calls (c + 1) (s ++ [(x, 0%nat)]) (x + 1) (LIdle :: m) false).
Proof. intros H. unfold open_ev. cbn [prun pstep po_loops nth_error po_cap po_cnt po_calls]. replace (cap <=? c) with false by lia. reflexivity. Qed.
Lemma fill cap calls m n : Z.of_nat n <= cap -> prun (pstart cap calls (S m)) (concat (repeat (open_ev 0) n)) = Ok (Pool cap calls (Z.of_nat n) (filled n) (Z.of_nat n + 1) (LIdle :: repeat LIdle m) false).
Proof.
  induction n as [|n IH]; intros H; [reflexivity|].
  assert (R : repeat (open_ev 0) (S n) = repeat (open_ev 0) n ++ [open_ev 0]) by (clear; induction n as [|n IH]; [reflexivity|]; cbn [repeat app] in *; f_equal; exact IH).
  rewrite R, concat_app. cbn [concat]. rewrite app_nil_r. rewrite (prun_app _ _ _ _ (IH ltac:(lia))). rewrite open_one by lia.
  unfold filled. rewrite seq_S, map_app. cbn [map]. rewrite Nat2Z.inj_succ, Nat.add_0_l. do 2 f_equal; lia.
Qed.
Lemma filled_len n : zlen (filled n) = Z.of_nat n.
Proof. unfold zlen, filled. rewrite map_length, seq_length. reflexivity. Qed.
Lemma quiet_loops n p : po_loops p = repeat LIdle n -> quiescent p.
Proof. intros E l H. rewrite E in H. apply repeat_spec in H. exact H. Qed.
(** "A refused connection does not disturb the server" is false: it ends the process.  Whatever the
    limit, a server that is full (opened one connection after the other) panics at the next one. *)
Theorem C54_refuted_crash : forall cap loops, 0 <= cap -> (1 <= loops)%nat -> exists es p,
  serial (pstart cap true loops) es /\ prun (pstart cap true loops) es = Ok p /\ quiescent p /\ zlen (po_sess p) = cap /\ po_cnt p = cap /\ pstep p (PCheck 0) = Panic.
Proof.
  intros cap loops HC HL. destruct loops as [|m]; [lia|]. exists (concat (repeat (open_ev 0) (Z.to_nat cap))).
  assert (L : Z.of_nat (Z.to_nat cap) = cap) by lia. pose proof (fill cap true m (Z.to_nat cap) ltac:(lia)) as F. rewrite L in F. eexists. split; [|split; [exact F|]].
  - assert (G : forall n c s x, c + Z.of_nat n <= cap -> serial (Pool cap true c s x (LIdle :: repeat LIdle m) false) (concat (repeat (open_ev 0) n))).
    { assert (Z0 : count busy (repeat LIdle m) = 0) by (apply idle_count; reflexivity).
      induction n as [|n IH]; intros c s x H; cbn [repeat concat open_ev app serial pstep po_loops nth_error po_cap po_cnt po_calls].
      - rewrite count_cons, Z0. cbn [busy]. split; [lia|exact I].
      - rewrite count_cons, Z0. cbn [busy]. split; [lia|]. replace (cap <=? c) with false by lia. cbn [set_loop upd firstn skipn app po_loops nth_error po_lock po_cnt po_sess po_next po_cap po_calls].
        rewrite count_cons, Z0. cbn [busy]. split; [lia|]. rewrite count_cons, Z0. cbn [busy]. split; [lia|]. apply IH. lia. }
    apply (G (Z.to_nat cap) 0 [] 1). lia.
  - split; [apply (quiet_loops (S m)); reflexivity|]. split; [cbn [po_sess]; rewrite filled_len; lia|]. split; [reflexivity|].
    cbn [pstep po_loops nth_error po_cap po_cnt po_calls]. rewrite Z.leb_refl. reflexivity.
Qed.
(** The limit can be exceeded: two event loops check before either has counted. *)
Theorem C54_refuted_limit : forall cap, 1 <= cap -> exists es p, prun (pstart cap true 2) es = Ok p /\ quiescent p /\ zlen (po_sess p) = cap + 1 /\ po_cnt p = cap + 1.
Proof.
  intros cap HC. exists (concat (repeat (open_ev 0) (Z.to_nat (cap - 1))) ++ [PCheck 0; PCheck 1; PCreate 0; PAdd 0; PCreate 1; PAdd 1]).
  pose proof (fill cap true 1 (Z.to_nat (cap - 1)) ltac:(lia)) as F. rewrite (prun_app _ _ _ _ F). rewrite Z2Nat.id by lia.
  cbn [prun pstep repeat po_loops nth_error po_cap po_cnt po_calls]. replace (cap <=? cap - 1) with false by lia. cbn [bind set_loop po_loops upd firstn skipn app nth_error po_cap po_cnt po_calls po_lock po_sess po_next].
  replace (cap <=? cap - 1) with false by lia. cbn [bind set_loop po_loops upd firstn skipn app nth_error po_cap po_cnt po_calls po_lock po_sess po_next].
  eexists. split; [reflexivity|]. split; [apply (quiet_loops 2); reflexivity|]. cbn [po_sess po_cnt]. unfold zlen. rewrite !app_length. cbn [length].
  pose proof (filled_len (Z.to_nat (cap - 1))) as FL. unfold zlen in FL. split; lia.
Qed.
(** The count can be wrong for good: an opening that overlaps a closing overwrites its decrement, and
    in the end a server with a single connection counts as full (and the next connection kills it). *)
Lemma drift cap calls c s x : c < cap -> s < x ->
  prun (Pool cap calls c [(s, 0%nat)] x [LIdle; LIdle] false) [PCheck 1; PCreate 1; PClose 0 s; PSub 0; PAdd 1] = Ok (Pool cap calls (c + 1) [(x, 1%nat)] (x + 1) [LIdle; LIdle] false) /\
  prun (Pool cap calls c [(s, 1%nat)] x [LIdle; LIdle] false) [PCheck 0; PCreate 0; PClose 1 s; PSub 1; PAdd 0] = Ok (Pool cap calls (c + 1) [(x, 0%nat)] (x + 1) [LIdle; LIdle] false).
Proof.
  intros H K. assert (E1 : (s =? s) = true) by lia. assert (E2 : (x =? s) = false) by lia. assert (E3 : (cap <=? c) = false) by lia.
  split; cbn [prun pstep po_loops nth_error po_cap po_cnt po_calls]; rewrite E3; cbn [bind set_loop po_loops upd firstn skipn app nth_error po_cap po_cnt po_calls po_lock po_sess po_next existsb fst snd];
  rewrite E1; cbn [bind andb orb Nat.eqb filter fst]; rewrite E1, E2; cbn [negb]; reflexivity.
Qed.
Theorem C54_refuted_count : forall cap, 1 <= cap -> exists es p,
  prun (pstart cap true 2) es = Ok p /\ quiescent p /\ zlen (po_sess p) = 1 /\ po_cnt p = cap /\ pstep p (PCheck 0) = Panic.
Proof.
  intros cap HC. assert (G : forall n, Z.of_nat n < cap -> exists es a x s, (a = 0 \/ a = 1)%nat /\ s < x /\ prun (pstart cap true 2) es = Ok (Pool cap true (Z.of_nat n + 1) [(s, a)] x [LIdle; LIdle] false)).
  { induction n as [|n IH]; intros H.
    - exists (open_ev 0), 0%nat, 2, 1. split; [auto|]. split; [lia|]. unfold open_ev. cbn [pstart prun pstep po_loops nth_error repeat po_cap po_cnt po_calls]. replace (cap <=? 0) with false by lia. reflexivity.
    - destruct (IH ltac:(lia)) as (es & a & x & s & A & K & E). destruct (drift cap true (Z.of_nat n + 1) s x ltac:(lia) K) as [D0 D1].
      destruct A as [-> | ->]; [exists (es ++ [PCheck 1; PCreate 1; PClose 0 s; PSub 0; PAdd 1]), 1%nat, (x + 1), x|exists (es ++ [PCheck 0; PCreate 0; PClose 1 s; PSub 1; PAdd 0]), 0%nat, (x + 1), x];
      (split; [auto|]); (split; [lia|]); rewrite (prun_app _ _ _ _ E); [rewrite D0|rewrite D1]; do 2 f_equal; lia. }
  destruct (G (Z.to_nat (cap - 1)) ltac:(lia)) as (es & a & x & s & A & K & E). exists es. eexists. split; [exact E|]. split; [apply (quiet_loops 2); reflexivity|]. split; [reflexivity|].
  cbn [po_cnt]. split; [lia|]. cbn [pstep po_loops nth_error po_cap po_cnt po_calls]. replace (cap <=? _) with true by lia. reflexivity.
Qed.

(** And too low: an opening that falls into a closing is overwritten by the decrement; two loops can
    gather any number of sessions while the counter says none. *)
Theorem C54_refuted_unbounded : forall cap calls n, 1 <= cap -> exists es p,
  prun (pstart cap calls 2) es = Ok p /\ quiescent p /\ zlen (po_sess p) = Z.of_nat n /\ po_cnt p = 0.
Proof.
  intros cap calls n HC.
  assert (G : forall n, exists es s x, prun (pstart cap calls 2) es = Ok (Pool cap calls 0 s x [LIdle; LIdle] false) /\ zlen s = Z.of_nat n /\ Forall (fun y => fst y < x) s).
  { clear n. induction n as [|n (es & s & x & E & L & F)]; [exists [], [], 1; split; [reflexivity|]; split; [reflexivity|constructor]|].
    exists (es ++ [PCheck 1; PCheck 0; PCreate 0; PAdd 0; PClose 0 x; PCreate 1; PAdd 1; PSub 0]), (s ++ [(x + 1, 1%nat)]), (x + 1 + 1).
    rewrite (prun_app _ _ _ _ E). assert (FI : filter (fun y : Z * nat => negb (fst y =? x)) (s ++ [(x, 0%nat)]) = s).
    { rewrite filter_app. cbn [filter fst]. rewrite Z.eqb_refl. cbn [negb]. rewrite app_nil_r. clear - F. induction F as [|y l H F IH]; [reflexivity|]. cbn [filter]. replace (fst y =? x) with false by lia. cbn [negb]. rewrite IH. reflexivity. }
    assert (EX : existsb (fun y : Z * nat => (fst y =? x) && Nat.eqb (snd y) 0) (s ++ [(x, 0%nat)]) = true).
    { apply existsb_exists. exists (x, 0%nat). split; [apply in_or_app; right; left; reflexivity|]. cbn [fst snd]. rewrite Z.eqb_refl. reflexivity. }
    assert (E0 : (cap <=? 0) = false) by lia. split; [|split].
    - cbn [prun pstep po_loops nth_error po_cap po_cnt po_calls]. rewrite E0. cbn [bind set_loop po_loops upd firstn skipn app nth_error po_cap po_cnt po_calls po_lock po_sess po_next]. rewrite E0.
      cbn [bind set_loop po_loops upd firstn skipn app nth_error po_cap po_cnt po_calls po_lock po_sess po_next]. rewrite EX, FI.
      cbn [bind set_loop po_loops upd firstn skipn app nth_error po_cap po_cnt po_calls po_lock po_sess po_next]. reflexivity.
    - rewrite zlen_app, L. cbn. lia.
    - apply Forall_app. split; [eapply Forall_impl; [|exact F]; cbn; intros; lia|]. repeat constructor. cbn. lia. }
  destruct (G n) as (es & s & x & E & L & _). exists es. eexists. split; [exact E|]. split; [apply (quiet_loops 2); reflexivity|]. split; [exact L|reflexivity].
Qed.

(** ** Which connections have a session *)
(** Every connection let in has its own session until it closes; nothing else changes the set, and a
    refused connection (where gnet would not call OnClose) changes nothing at all. *)
Theorem C54_sessions : forall p e p', fresh p -> pstep p e = Ok p' ->
  fresh p' /\
  match e with
  | PCreate i => (nth_error (po_loops p) i = Some LCreate /\ po_lock p = false /\ ~ In (po_next p) (map fst (po_sess p)) /\ po_sess p' = po_sess p ++ [(po_next p, i)]) \/
                 ((nth_error (po_loops p) i <> Some LCreate \/ po_lock p = true) /\ p' = p)
  | PClose i s => (In (s, i) (po_sess p) /\ nth_error (po_loops p) i = Some LIdle /\ (forall x, In x (po_sess p') <-> In x (po_sess p) /\ fst x <> s)) \/
                  ((~ In (s, i) (po_sess p) \/ nth_error (po_loops p) i <> Some LIdle) /\ p' = p)
  | PCheck i => po_sess p' = po_sess p /\ po_cnt p' = po_cnt p /\ (po_cap p <= po_cnt p -> p' = p)
  | _ => po_sess p' = po_sess p
  end.
Proof.
  intros p e p' F E. split; [eapply fresh_step; eauto|]. destruct F as [F1 F2].
  destruct e as [i|i|i|i s|i]; cbn [pstep] in E; destruct (nth_error (po_loops p) i) as [[| |v|v]|] eqn:N; try (injection E as <-); auto; try (right; split; [auto; left; discriminate|reflexivity]); try (right; split; [right; discriminate|reflexivity]).
  - destruct (_ <=? _) eqn:L; [destruct (po_calls p); [discriminate|]; injection E as <-; auto|]. injection E as <-. split; [reflexivity|]. split; [reflexivity|]. intros; lia.
  - destruct (po_lock p); injection E as <-; [right; auto|]. left. split; [reflexivity|]. split; [reflexivity|]. split; [|reflexivity].
    intros H. apply in_map_iff in H as (x & Ex & H). apply F2 in H. lia.
  - destruct (existsb _ _) eqn:X; injection E as <-.
    + left. apply existsb_exists in X as ([a j] & X & Y). cbn [fst snd] in Y. apply andb_prop in Y as [Y1 Y2]. apply Z.eqb_eq in Y1. apply Nat.eqb_eq in Y2. subst. split; [exact X|]. split; [reflexivity|].
      intros x. cbn [po_sess]. rewrite filter_In, negb_true_iff, Z.eqb_neq. reflexivity.
    + right. split; [|reflexivity]. left. intros H. rewrite <- not_true_iff_false in X. apply X. apply existsb_exists. exists (s, i). split; [exact H|]. cbn [fst snd]. rewrite Z.eqb_refl, Nat.eqb_refl. reflexivity.
Qed.
(** Two loops with a limit of two: sessions 1 and 2 are opened, 1 is closed, 3 is opened on the other
    loop; a further connection, were OnClose not called for it, is turned away. *)
Definition es_serial : list pevent := open_ev 0 ++ open_ev 1 ++ [PClose 0 1; PSub 0] ++ open_ev 1 ++ [PCheck 0; PCreate 0; PAdd 0].
Example C54_serial_ex : serial (pstart 2 false 2) es_serial /\
  prun (pstart 2 false 2) es_serial = Ok (Pool 2 false 2 [(2, 1%nat); (3, 1%nat)] 4 [LIdle; LIdle] false).
Proof. split; [|reflexivity]. vm_compute. repeat (split; [discriminate|]). exact I. Qed.
(** Two overlapping openings with a limit of one and no closing. *)
Example C54_openings_ex : prun (pstart 1 true 2) [PCheck 0; PCheck 1; PCreate 0; PCreate 1; PAdd 0; PCreate 1; PAdd 1] = Ok (Pool 1 true 2 [(1, 0%nat); (2, 1%nat)] 3 [LIdle; LIdle] false).
Proof. reflexivity. Qed.
Print Assumptions C54_partial.
Print Assumptions C54_one_loop.
Print Assumptions C54_openings_partial.
Print Assumptions C54_sessions.
Print Assumptions C54_refuted_crash.
Print Assumptions C54_refuted_limit.
Print Assumptions C54_refuted_count.
Print Assumptions C54_refuted_unbounded.
