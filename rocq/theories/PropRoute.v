(** * C85: concurrent sends choosing their carrier *)
From Verif Require Import Base FactoryModel RouteModel.

(** ** What is claimed *)
(** A call that is being served: it got the lock and has not given it back. *)
Definition inside (c : rcall) : Prop := match rc_pc c with RLook _ | RMake _ | RDead => True | _ => False end.
Definition served (c : rcall) : Prop := exists o, rc_pc c = RDone o.
(** In the run [es], call g tried to set up carrier i and there was no account for it. *)
Definition no_setup (es : list revent) (g i : nat) : Prop :=
  exists a b c, es = a ++ RMade g (Ok None) :: b /\ nth_error (rt_calls (rrun rstart a)) g = Some c /\ rc_pc c = RMake i.
(** Carrier i is not one for call g with that number: its expression says no, or it could not be set up. *)
Definition not_for (es : list revent) (g : nat) (phone : bytes) (i : nat) : Prop :=
  (exists m, nth_error (rt_facs (rrun rstart es)) i = Some (Some (Some m)) /\ m phone = false) \/ no_setup es g i.

(** ** Proofs *)
Definition refuses (facs : list (option factory)) (c : rcall) (i : nat) : Prop :=
  (exists m, nth_error facs i = Some (Some (Some m)) /\ m (rc_phone c) = false) \/ In i (rc_none c).
Lemma set_nth_at {A} (l : list A) g x y : nth_error l g = Some y -> forall k, nth_error (set_nth l g x) k = if (k =? g)%nat then Some x else nth_error l k.
Proof.
  unfold set_nth. revert g. induction l as [|a l IH]; intros [|g] H k; try discriminate H.
  - destruct k; reflexivity.
  - destruct k; [reflexivity|]. cbn [firstn app skipn nth_error]. apply (IH g H k).
Qed.
Lemma set_nth_len {A} (l : list A) g x y : nth_error l g = Some y -> length (set_nth l g x) = length l.
Proof. intros H. unfold set_nth. assert (g < length l)%nat by (apply nth_error_Some; congruence). rewrite !app_length, firstn_length, skipn_length. cbn [length]. lia. Qed.
Definition holds (s : rstate) (g : nat) : Prop := exists c, nth_error (rt_calls s) g = Some c /\ inside c.
Definition upto (facs : list (option factory)) (c : rcall) (n : nat) : Prop := forall j, (j < n)%nat -> refuses facs c j.
Definition call_ok (facs : list (option factory)) (c : rcall) : Prop :=
  Forall (fun i => (i < 3)%nat) (rc_none c) /\
  match rc_pc c with
  | RWait => rc_none c = []
  | RLook i => (i <= 3)%nat /\ upto facs c i
  | RMake i => (i < 3)%nat /\ upto facs c i /\ nth_error facs i = Some None
  | RDone (Some i) => (i < 3)%nat /\ upto facs c i /\ exists m, nth_error facs i = Some (Some (Some m)) /\ m (rc_phone c) = true
  | RDone None => upto facs c 3
  | RDead => True
  end.
Definition rinv (s : rstate) : Prop :=
  length (rt_facs s) = 3%nat
  /\ (forall g h, holds s g -> holds s h -> g = h)
  /\ (rt_mu s = true <-> exists g, holds s g)
  /\ (forall c, In c (rt_calls s) -> call_ok (rt_facs s) c)
  /\ NoDup (rt_made s) /\ (forall i, In i (rt_made s) <-> exists f, nth_error (rt_facs s) i = Some (Some f)).
Lemma refuses_grow facs facs' c c' j : rc_phone c' = rc_phone c -> incl (rc_none c) (rc_none c') -> (forall i f, nth_error facs i = Some (Some f) -> nth_error facs' i = Some (Some f)) -> refuses facs c j -> refuses facs' c' j.
Proof. intros P N F [(m & A & B)|B]; [left; exists m; rewrite P; auto|right; auto]. Qed.
Lemma in_set {A} (l : list A) g x y c : nth_error l g = Some y -> In c (set_nth l g x) -> c = x \/ exists k, k <> g /\ nth_error l k = Some c.
Proof. intros H I. apply In_nth_error in I as (k & K). rewrite (set_nth_at _ _ _ _ H) in K. destruct (Nat.eqb_spec k g); [left; congruence|right; eauto]. Qed.
Lemma rinv_start : rinv rstart.
Proof.
  split; [reflexivity|]. split; [intros g h (c & E & _); destruct g; discriminate E|]. split; [split; [discriminate|intros (g & c & E & _); destruct g; discriminate E]|].
  split; [intros c []|]. split; [constructor|]. intros i. split; [intros []|]. intros (f & E). do 3 (destruct i as [|i]; [discriminate E|]). destruct i; discriminate E.
Qed.
(** A move of the call that holds the lock, the places growing or staying. *)
Lemma rinv_move s g c c' mu facs made : rinv s -> nth_error (rt_calls s) g = Some c -> (inside c \/ rt_mu s = false) ->
  length facs = 3%nat -> (forall i f, nth_error (rt_facs s) i = Some (Some f) -> nth_error facs i = Some (Some f)) ->
  call_ok facs c' -> (mu = true <-> inside c') ->
  NoDup made -> (forall i, In i made <-> exists f, nth_error facs i = Some (Some f)) ->
  rinv (RState mu facs (set_nth (rt_calls s) g c') made).
Proof.
  intros (L & U & M & C & ND & MD) E OWN L' GROW OK MU ND' MD'.
  assert (OTHER : forall k d, k <> g -> nth_error (rt_calls s) k = Some d -> ~ inside d).
  { intros k d Nk K I. destruct OWN as [O|O]; [apply Nk; apply U; [exists d|exists c]; auto|]. assert (rt_mu s = true) by (apply M; exists k, d; auto). congruence. }
  assert (HO : forall k, holds (RState mu facs (set_nth (rt_calls s) g c') made) k <-> k = g /\ inside c').
  { intros k. unfold holds. cbn [rt_calls]. split.
    - intros (d & K & I). rewrite (set_nth_at _ _ _ _ E) in K. destruct (Nat.eqb_spec k g); [split; [auto|congruence]|]. exfalso. exact (OTHER k d n K I).
    - intros [-> I]. exists c'. rewrite (set_nth_at _ _ _ _ E), Nat.eqb_refl. auto. }
  split; [exact L'|]. split; [intros a b A B; apply HO in A, B; destruct A, B; congruence|]. split.
  { cbn [rt_mu]. rewrite MU. split; [intros I; exists g; apply HO; auto|intros (k & K); apply HO in K; tauto]. }
  split; [|split; [exact ND'|exact MD']]. cbn [rt_calls rt_facs]. intros d D. apply (in_set _ _ _ _ _ E) in D as [->|(k & Nk & K)]; [exact OK|].
  pose proof (C d (nth_error_In _ _ K)) as [F X]. pose proof (OTHER k d Nk K) as NI. split; [exact F|]. unfold inside in NI. destruct (rc_pc d) as [|i|i|[i|]|]; try tauto.
  - destruct X as (A & B & m & D1 & D2). split; [exact A|]. split; [|exists m; auto]. intros j J. apply (refuses_grow (rt_facs s) facs d d j eq_refl (incl_refl _) GROW). auto.
  - intros j J. apply (refuses_grow (rt_facs s) facs d d j eq_refl (incl_refl _) GROW). auto.
Qed.
Lemma rinv_step s e : rinv s -> rinv (rstep s e).
Proof.
  intros IV. pose proof IV as (L & U & M & C & ND & MD). destruct e as [phone|g|g|g o]; cbn [rstep].
  - assert (HO : forall k, holds (RState (rt_mu s) (rt_facs s) (rt_calls s ++ [RCall phone RWait []]) (rt_made s)) k <-> holds s k).
    { intros k. unfold holds. cbn [rt_calls]. split; intros (d & K & I); exists d; (split; [|exact I]).
      - destruct (Nat.lt_ge_cases k (length (rt_calls s))); [rewrite nth_error_app1 in K; auto|]. rewrite nth_error_app2 in K by lia. destruct (k - length (rt_calls s))%nat as [|n]; [injection K as <-; destruct I|destruct n; discriminate K].
      - rewrite nth_error_app1; [exact K|apply nth_error_Some; congruence]. }
    split; [exact L|]. split; [intros a b A B; apply U; apply HO; auto|]. split; [rewrite M; split; intros (k & K); exists k; apply HO; auto|]. split; [|auto].
    cbn [rt_calls rt_facs]. intros c I. apply in_app_or in I as [I|[<-|[]]]; [auto|]. split; [constructor|reflexivity].
  - destruct (nth_error (rt_calls s) g) as [c|] eqn:E; [|exact IV]. destruct (rc_pc c) eqn:P; try exact IV. destruct (rt_mu s) eqn:MU; [exact IV|].
    apply (rinv_move s g c); auto. 2: split; [intros _; exact I|reflexivity]. destruct (C c (nth_error_In _ _ E)) as [F X]. split; [exact F|]. cbn [rc_pc]. split; [lia|intros j J; lia].
  - destruct (nth_error (rt_calls s) g) as [c|] eqn:E; [|exact IV]. destruct (rc_pc c) as [|i|i|o|] eqn:P; try exact IV.
    destruct (C c (nth_error_In _ _ E)) as [F X]. rewrite P in X. destruct X as [Li UP].
    assert (IC : inside c) by (unfold inside; rewrite P; exact I). assert (MU : rt_mu s = true) by (apply M; exists g, c; auto).
    assert (UP' : forall pc, upto (rt_facs s) (RCall (rc_phone c) pc (rc_none c)) i) by (intros pc j J; apply (refuses_grow (rt_facs s) (rt_facs s) c); auto; apply incl_refl).
    destruct (nth_error (rt_facs s) i) as [[[m|]|]|] eqn:N.
    + assert (i < 3)%nat by (rewrite <- L; apply nth_error_Some; congruence). destruct (m (rc_phone c)) eqn:MP.
      * apply (rinv_move s g c); auto; [|split; [discriminate|intros []]]. split; [exact F|]. cbn [rc_pc]. split; [assumption|]. split; [apply UP'|]. exists m. auto.
      * apply (rinv_move s g c); auto; [|split; [intros _; exact I|intros _; exact MU]]. split; [exact F|]. cbn [rc_pc]. split; [lia|]. intros j J. destruct (Nat.eq_dec j i) as [->|]; [|apply UP'; lia]. left. exists m. auto.
    + apply (rinv_move s g c); auto; [|split; [intros _; exact I|intros _; exact MU]]. split; [exact F|exact I].
    + assert (i < 3)%nat by (rewrite <- L; apply nth_error_Some; congruence). apply (rinv_move s g c); auto; [|split; [intros _; exact I|intros _; exact MU]]. split; [exact F|]. cbn [rc_pc]. split; [assumption|]. split; [apply UP'|exact N].
    + apply nth_error_None in N. assert (i = 3)%nat by lia. subst i. apply (rinv_move s g c); auto; [|split; [discriminate|intros []]]. split; [exact F|]. cbn [rc_pc]. apply UP'.
  - destruct (nth_error (rt_calls s) g) as [c|] eqn:E; [|exact IV]. destruct (rc_pc c) as [|i|i|o'|] eqn:P; try exact IV.
    destruct (C c (nth_error_In _ _ E)) as [F X]. rewrite P in X. destruct X as (Li & UP & NN).
    assert (IC : inside c) by (unfold inside; rewrite P; exact I). assert (MU : rt_mu s = true) by (apply M; exists g, c; auto).
    destruct o as [[f|]|e|].
    + assert (NEW : forall k, nth_error (set_nth (rt_facs s) i (Some f)) k = if (k =? i)%nat then Some (Some f) else nth_error (rt_facs s) k) by (apply (set_nth_at _ _ _ _ NN)).
      assert (GROW : forall k f0, nth_error (rt_facs s) k = Some (Some f0) -> nth_error (set_nth (rt_facs s) i (Some f)) k = Some (Some f0)) by (intros k f0 K; rewrite NEW; destruct (Nat.eqb_spec k i); [congruence|exact K]).
      apply (rinv_move s g c); auto.
      * rewrite (set_nth_len _ _ _ _ NN). exact L.
      * split; [exact F|]. cbn [rc_pc]. split; [lia|]. intros j J. apply (refuses_grow (rt_facs s) _ c); auto. apply incl_refl.
      * split; [intros _; exact I|intros _; exact MU].
      * assert (~ In i (rt_made s)) by (rewrite MD; intros (f0 & K); congruence). clear -ND H. induction (rt_made s) as [|a l IH]; cbn [app]; [constructor; [intros []|constructor]|]. inversion ND; subst. constructor; [|apply IH; [assumption|intros K; apply H; right; exact K]]. rewrite in_app_iff. intros [K|[->|[]]]; [contradiction|]. apply H. left. reflexivity.
      * intros k. rewrite in_app_iff, MD, NEW. destruct (Nat.eqb_spec k i) as [->|n]; split.
        -- intros _. eauto.
        -- intros _. right. left. reflexivity.
        -- intros [K|[K|[]]]; [exact K|congruence].
        -- intros K. left. exact K.
    + apply (rinv_move s g c); auto; [|split; [intros _; exact I|intros _; exact MU]]. split; [constructor; assumption|]. cbn [rc_pc]. split; [lia|]. intros j J. destruct (Nat.eq_dec j i) as [->|]; [right; left; reflexivity|]. apply (refuses_grow (rt_facs s) _ c); auto; [cbn [rc_none]; apply incl_tl, incl_refl|]. apply UP. lia.
    + apply (rinv_move s g c); auto; [split; [exact F|exact I]|split; [intros _; exact I|intros _; exact MU]].
    + apply (rinv_move s g c); auto; [split; [exact F|exact I]|split; [intros _; exact I|intros _; exact MU]].
Qed.
Lemma rinv_run es : forall s, rinv s -> rinv (rrun s es).
Proof. induction es as [|e es IH]; intros s H; [exact H|]. apply IH, rinv_step, H. Qed.

(** ** C85 *)
(** Whatever the goroutines do, at most one call at a time is inside the choice, and no carrier is
    set up twice. *)
Theorem C85_exclusive : forall es, let s := rrun rstart es in
  (forall g h c d, nth_error (rt_calls s) g = Some c -> nth_error (rt_calls s) h = Some d -> inside c -> inside d -> g = h)
  /\ NoDup (rt_made s) /\ (forall i, In i (rt_made s) <-> exists f, nth_error (rt_facs s) i = Some (Some f)).
Proof.
  intros es s. destruct (rinv_run es rstart rinv_start) as (L & U & M & C & ND & MD). split; [|auto].
  intros g h c d G H I J. apply U; [exists c|exists d]; auto.
Qed.
Lemma none_true es : forall g c i, nth_error (rt_calls (rrun rstart es)) g = Some c -> In i (rc_none c) -> no_setup es g i.
Proof.
  induction es as [|e es IH] using rev_ind; intros g c i E N; [destruct g; discriminate E|].
  assert (OLD : forall c0, nth_error (rt_calls (rrun rstart es)) g = Some c0 -> In i (rc_none c0) -> no_setup (es ++ [e]) g i).
  { intros c0 E0 N0. destruct (IH g c0 i E0 N0) as (a & b & c1 & -> & X). exists a, (b ++ [e]), c1. rewrite <- app_assoc. auto. }
  unfold rrun in E. rewrite fold_left_app in E. fold (rrun rstart es) in E. cbn [fold_left] in E. set (s := rrun rstart es) in *.
  assert (SET : forall h d c1, nth_error (rt_calls s) h = Some d -> nth_error (set_nth (rt_calls s) h c1) g = Some c -> (rc_none c1 = rc_none d) -> no_setup (es ++ [e]) g i).
  { intros h d c1 H K R. rewrite (set_nth_at _ _ _ _ H) in K. destruct (Nat.eqb_spec g h) as [->|]; [|exact (OLD c K N)]. injection K as <-. rewrite R in N. exact (OLD d H N). }
  destruct e as [phone|h|h|h o]; cbn [rstep] in E.
  - cbn [rt_calls] in E. destruct (Nat.lt_ge_cases g (length (rt_calls s))) as [X|X]; [rewrite nth_error_app1 in E by exact X; exact (OLD c E N)|]. rewrite nth_error_app2 in E by lia. destruct (g - length (rt_calls s))%nat as [|n]; [injection E as <-; destruct N|destruct n; discriminate E].
  - destruct (nth_error (rt_calls s) h) as [d|] eqn:H; [|exact (OLD c E N)]. destruct (rc_pc d); try exact (OLD c E N). destruct (rt_mu s); [exact (OLD c E N)|]. exact (SET h d _ H E eq_refl).
  - destruct (nth_error (rt_calls s) h) as [d|] eqn:H; [|exact (OLD c E N)]. destruct (rc_pc d); try exact (OLD c E N). destruct (nth_error (rt_facs s) i0) as [[[m|]|]|]; try exact (SET h d _ H E eq_refl). destruct (m (rc_phone d)); exact (SET h d _ H E eq_refl).
  - destruct (nth_error (rt_calls s) h) as [d|] eqn:H; [|exact (OLD c E N)]. destruct (rc_pc d) as [|k|k|q|] eqn:P; try exact (OLD c E N). destruct o as [[f|]|x|]; try exact (SET h d _ H E eq_refl).
    cbn [rt_calls] in E. rewrite (set_nth_at _ _ _ _ H) in E. destruct (Nat.eqb_spec g h) as [->|]; [|exact (OLD c E N)]. injection E as <-. cbn [rc_none] in N. destruct N as [->|N]; [|exact (OLD d H N)]. exists es, [], d. auto.
Qed.
(** A call that ends has the first carrier that takes its number; if it has none, every carrier
    refuses the number or could not be set up during the call. *)
Theorem C85_first : forall es g c o, nth_error (rt_calls (rrun rstart es)) g = Some c -> rc_pc c = RDone o ->
  match o with
  | Some i => (exists m, nth_error (rt_facs (rrun rstart es)) i = Some (Some (Some m)) /\ m (rc_phone c) = true) /\ forall j, (j < i)%nat -> not_for es g (rc_phone c) j
  | None => forall j, (j < 3)%nat -> not_for es g (rc_phone c) j
  end.
Proof.
  intros es g c o E P. destruct (rinv_run es rstart rinv_start) as (L & U & M & C & ND & MD).
  assert (T : forall j, refuses (rt_facs (rrun rstart es)) c j -> not_for es g (rc_phone c) j) by (intros j [X|X]; [left; exact X|right; exact (none_true es g c j E X)]).
  destruct (C c (nth_error_In _ _ E)) as [F X]. rewrite P in X. destruct o as [i|]; [|intros j J; apply T, X, J]. destruct X as (_ & A & B). split; [exact B|]. intros j J. apply T, A, J.
Qed.
(** The calls are those that were made, each with its own number. *)
Definition numbers (es : list revent) : list bytes := flat_map (fun e => match e with RNew p => [p] | _ => [] end) es.
Theorem C85_numbers : forall es, map rc_phone (rt_calls (rrun rstart es)) = numbers es.
Proof.
  assert (SET : forall l g c c1, nth_error l g = Some c -> rc_phone c1 = rc_phone c -> map rc_phone (set_nth l g c1) = map rc_phone l).
  { induction l as [|a l IH]; intros [|g] c c1 E P; try discriminate E; unfold set_nth in *; cbn [firstn app skipn map].
    - injection E as ->. rewrite P. reflexivity.
    - f_equal. exact (IH g c c1 E P). }
  induction es as [|e es IH] using rev_ind; [reflexivity|]. unfold numbers, rrun in *. rewrite flat_map_app, fold_left_app. cbn [fold_left flat_map]. rewrite app_nil_r, <- IH. set (s := fold_left rstep es rstart).
  destruct e as [phone|h|h|h o]; cbn [rstep]; [apply map_app| | |]; rewrite app_nil_r; (destruct (nth_error (rt_calls s) h) as [d|] eqn:H; [|reflexivity]); destruct (rc_pc d) as [|k|k|q|]; try reflexivity.
  - destruct (rt_mu s); [reflexivity|]. exact (SET _ _ _ (RCall _ _ _) H eq_refl).
  - destruct (nth_error (rt_facs s) k) as [[[m|]|]|]; try exact (SET _ _ _ (RCall _ _ _) H eq_refl). destruct (m (rc_phone d)); exact (SET _ _ _ (RCall _ _ _) H eq_refl).
  - destruct o as [[f|]|x|]; exact (SET _ _ _ (RCall _ _ _) H eq_refl).
Qed.
(** A carrier once set up stays the same for good. *)
Theorem C85_kept : forall es es' i f, nth_error (rt_facs (rrun rstart es)) i = Some (Some f) -> nth_error (rt_facs (rrun rstart (es ++ es'))) i = Some (Some f).
Proof.
  intros es es' i f. unfold rrun at 2. rewrite fold_left_app. pose proof (rinv_run es rstart rinv_start) as IV. fold (rrun rstart es). revert IV. generalize (rrun rstart es). induction es' as [|e es' IH]; intros s IV H; [exact H|]. cbn [fold_left].
  apply IH; [apply rinv_step, IV|]. destruct e as [phone|g|g|g o]; cbn [rstep]; [exact H| | |]; (destruct (nth_error (rt_calls s) g) as [c|] eqn:E; [|exact H]); destruct (rc_pc c) as [|k|k|o'|] eqn:P; try exact H.
  - destruct (rt_mu s); exact H.
  - destruct (nth_error (rt_facs s) k) as [[[m|]|]|]; try exact H. destruct (m (rc_phone c)); exact H.
  - destruct o as [[f0|]|e|]; try exact H. cbn [rt_facs]. destruct IV as (_ & _ & _ & C & _). destruct (C c (nth_error_In _ _ E)) as [_ X]. rewrite P in X. destruct X as (_ & _ & NN).
    rewrite (set_nth_at _ _ _ _ NN). destruct (Nat.eqb_spec i k); [congruence|exact H].
Qed.
(** While one call holds the lock and does not end, no other call ends, whatever else happens. *)
Lemma stuck : forall es s g c, rinv s -> nth_error (rt_calls s) g = Some c -> (rc_pc c = RDead \/ (exists i, rc_pc c = RMake i) /\ forall o, ~ In (RMade g o) es) ->
  nth_error (rt_calls (rrun s es)) g = Some c /\ rt_facs (rrun s es) = rt_facs s /\
  forall h d, nth_error (rt_calls (rrun s es)) h = Some d -> served d -> nth_error (rt_calls s) h = Some d.
Proof.
  induction es as [|e es IH]; intros s g c IV E P; [cbn; auto|]. cbn [rrun fold_left]. fold (rrun (rstep s e) es).
  assert (IC : inside c) by (unfold inside; destruct P as [->|((i & ->) & _)]; exact I). pose proof IV as (L & U & M & C & _). assert (MU : rt_mu s = true) by (apply M; exists g, c; auto).
  assert (ONE : rstep s e = s \/ exists phone, e = RNew phone).
  { destruct e as [phone|h|h|h o]; [eauto| | |]; left; cbn [rstep]; destruct (nth_error (rt_calls s) h) as [d|] eqn:H; try reflexivity.
    - destruct (rc_pc d); try reflexivity. rewrite MU. reflexivity.
    - destruct (rc_pc d) eqn:Q; try reflexivity. exfalso. assert (h = g) by (apply U; [exists d|exists c]; split; auto; unfold inside; rewrite Q; exact I). subst h. rewrite E in H. injection H as ->. rewrite Q in P. destruct P as [P|((k & P) & _)]; discriminate P.
    - destruct (rc_pc d) eqn:Q; try reflexivity. exfalso. assert (h = g) by (apply U; [exists d|exists c]; split; auto; unfold inside; rewrite Q; exact I). subst h. rewrite E in H. injection H as ->. rewrite Q in P. destruct P as [P|(_ & P)]; [discriminate P|]. apply (P o). left. reflexivity. }
  assert (P' : rc_pc c = RDead \/ (exists i, rc_pc c = RMake i) /\ forall o, ~ In (RMade g o) es) by (destruct P as [P|[P Q]]; [left; exact P|right; split; [exact P|intros o K; apply (Q o); right; exact K]]).
  destruct ONE as [->|(phone & ->)]; [apply IH; auto|].
  assert (E1 : nth_error (rt_calls (rstep s (RNew phone))) g = Some c) by (cbn [rstep rt_calls]; rewrite nth_error_app1; [exact E|apply nth_error_Some; congruence]).
  destruct (IH (rstep s (RNew phone)) g c (rinv_step s (RNew phone) IV) E1 P') as (A & B & D). split; [exact A|]. split; [exact B|].
  intros h d H S. specialize (D h d H S). cbn [rstep rt_calls] in D. destruct (Nat.lt_ge_cases h (length (rt_calls s))) as [X|X]; [rewrite nth_error_app1 in D; auto|]. rewrite nth_error_app2 in D by lia.
  destruct (h - length (rt_calls s))%nat as [|n]; [injection D as <-; destruct S as (o & S); discriminate S|destruct n; discriminate D].
Qed.
(** The claim that one failing send does not hold up the others is false: once a call has panicked
    while choosing, no call that was not through by then ever gets through, whatever carrier its
    number belongs to, and no carrier is ever set up any more. *)
Theorem C85_refuted_dead : forall es es' g c, nth_error (rt_calls (rrun rstart es)) g = Some c -> rc_pc c = RDead ->
  rt_facs (rrun rstart (es ++ es')) = rt_facs (rrun rstart es) /\
  forall h d, nth_error (rt_calls (rrun rstart (es ++ es'))) h = Some d -> served d -> nth_error (rt_calls (rrun rstart es)) h = Some d.
Proof.
  intros es es' g c E P. unfold rrun at 1 3. rewrite fold_left_app. fold (rrun rstart es). fold (rrun (rrun rstart es) es').
  destruct (stuck es' (rrun rstart es) g c (rinv_run es rstart rinv_start) E (or_introl P)) as (_ & B & D). auto.
Qed.
(** Nor does it hold for a gateway that does not answer: while one call waits for it, no other call
    gets through. *)
Theorem C85_refuted_silent : forall es es' g c i, nth_error (rt_calls (rrun rstart es)) g = Some c -> rc_pc c = RMake i -> (forall o, ~ In (RMade g o) es') ->
  rt_facs (rrun rstart (es ++ es')) = rt_facs (rrun rstart es) /\
  forall h d, nth_error (rt_calls (rrun rstart (es ++ es'))) h = Some d -> served d -> nth_error (rt_calls (rrun rstart es)) h = Some d.
Proof.
  intros es es' g c i E P N. unfold rrun at 1 3. rewrite fold_left_app. fold (rrun rstart es). fold (rrun (rrun rstart es) es').
  destruct (stuck es' (rrun rstart es) g c (rinv_run es rstart rinv_start) E (or_intror (conj (ex_intro _ i P) N))) as (_ & B & D). auto.
Qed.
(** When a call panics: exactly when it comes to a carrier whose expression did not compile, or
    setting up a carrier panics. *)
Theorem C85_dead_iff : forall s e g c, nth_error (rt_calls s) g = Some c -> rc_pc c <> RDead ->
  ((exists c', nth_error (rt_calls (rstep s e)) g = Some c' /\ rc_pc c' = RDead) <->
   (exists i, rc_pc c = RLook i /\ e = RStep g /\ nth_error (rt_facs s) i = Some (Some None)) \/
   (exists i o, rc_pc c = RMake i /\ e = RMade g o /\ forall x, o <> Ok x)).
Proof.
  intros s e g c E ND. split.
  - intros (c' & E' & D).
    assert (HIT : forall h d c1 mu facs made, nth_error (rt_calls s) h = Some d -> nth_error (rt_calls (RState mu facs (set_nth (rt_calls s) h c1) made)) g = Some c' -> h = g /\ d = c /\ c' = c1).
    { intros h d c1 mu facs made H K. cbn [rt_calls] in K. rewrite (set_nth_at _ _ _ _ H) in K. destruct (Nat.eqb_spec g h); [subst h; repeat split; congruence|]. congruence. }
    destruct e as [phone|h|h|h o]; cbn [rstep] in E'.
    + cbn [rt_calls] in E'. rewrite nth_error_app1 in E' by (apply nth_error_Some; congruence). congruence.
    + destruct (nth_error (rt_calls s) h) as [d|] eqn:H; [|congruence]. destruct (rc_pc d) eqn:Q; try congruence. destruct (rt_mu s); [congruence|]. apply (HIT _ _ _ _ _ _ H) in E' as (-> & -> & ->). discriminate D.
    + destruct (nth_error (rt_calls s) h) as [d|] eqn:H; [|congruence]. destruct (rc_pc d) as [|i|i|o|] eqn:Q; try congruence. destruct (nth_error (rt_facs s) i) as [[[m|]|]|] eqn:N.
      * destruct (m (rc_phone d)); apply (HIT _ _ _ _ _ _ H) in E' as (-> & -> & ->); discriminate D.
      * apply (HIT _ _ _ _ _ _ H) in E' as (-> & -> & ->). left. eauto.
      * apply (HIT _ _ _ _ _ _ H) in E' as (-> & -> & ->). discriminate D.
      * apply (HIT _ _ _ _ _ _ H) in E' as (-> & -> & ->). discriminate D.
    + destruct (nth_error (rt_calls s) h) as [d|] eqn:H; [|congruence]. destruct (rc_pc d) as [|i|i|o'|] eqn:Q; try congruence. destruct o as [[f|]|x|].
      * apply (HIT _ _ _ _ _ _ H) in E' as (-> & -> & ->). discriminate D.
      * apply (HIT _ _ _ _ _ _ H) in E' as (-> & -> & ->). discriminate D.
      * apply (HIT _ _ _ _ _ _ H) in E' as (-> & -> & ->). right. exists i, (Err x). repeat split; auto; discriminate.
      * apply (HIT _ _ _ _ _ _ H) in E' as (-> & -> & ->). right. exists i, Panic. repeat split; auto; discriminate.
  - intros [(i & P & -> & N)|(i & o & P & -> & N)]; cbn [rstep]; rewrite E, P.
    + rewrite N. eexists. unfold at_pc. cbn [rt_calls]. rewrite (set_nth_at _ _ _ _ E), Nat.eqb_refl. split; reflexivity.
    + destruct o as [x|x|]; [exfalso; exact (N x eq_refl)| |]; eexists; unfold at_pc; cbn [rt_calls]; rewrite (set_nth_at _ _ _ _ E), Nat.eqb_refl; split; reflexivity.
Qed.
(** If every expression compiles and setting up always ends without a panic, no call hangs: from any
    state every call can be brought to its end by letting calls that are inside take their steps,
    whatever the setting up of carriers gives ([mk]). *)
Definition compiled (o : res (option factory)) : Prop := exists x, o = Ok x /\ x <> Some None.
Definition calm (es : list revent) : Prop := forall g o, In (RMade g o) es -> compiled o.
Lemma rrun_app s a b : rrun s (a ++ b) = rrun (rrun s a) b.
Proof. apply fold_left_app. Qed.
Definition good (s : rstate) : Prop := rinv s /\ (forall c, In c (rt_calls s) -> rc_pc c <> RDead) /\ (forall i, nth_error (rt_facs s) i <> Some (Some None)).
Lemma good_step s e : good s -> (forall g o, e = RMade g o -> compiled o) -> good (rstep s e).
Proof.
  intros (IV & D & N) OK. split; [apply rinv_step, IV|].
  assert (SET : forall g c c', nth_error (rt_calls s) g = Some c -> rc_pc c' <> RDead -> forall d, In d (set_nth (rt_calls s) g c') -> rc_pc d <> RDead).
  { intros g c c' E X d I. apply (in_set _ _ _ _ _ E) in I as [->|(k & _ & K)]; [exact X|]. exact (D d (nth_error_In _ _ K)). }
  destruct e as [phone|g|g|g o]; cbn [rstep].
  - split; [|exact N]. cbn [rt_calls]. intros c I. apply in_app_or in I as [I|[<-|[]]]; [auto|discriminate].
  - destruct (nth_error (rt_calls s) g) as [c|] eqn:E; [|auto]. destruct (rc_pc c) eqn:P; auto. destruct (rt_mu s); auto. split; [|exact N]. apply (SET g c _ E). discriminate.
  - destruct (nth_error (rt_calls s) g) as [c|] eqn:E; [|auto]. destruct (rc_pc c) eqn:P; auto. destruct (nth_error (rt_facs s) i) as [[[m|]|]|] eqn:Q.
    + destruct (m (rc_phone c)); (split; [apply (SET g c _ E); discriminate|exact N]).
    + exfalso. exact (N i Q).
    + split; [apply (SET g c _ E); discriminate|exact N].
    + split; [apply (SET g c _ E); discriminate|exact N].
  - destruct (nth_error (rt_calls s) g) as [c|] eqn:E; [|auto]. destruct (rc_pc c) eqn:P; auto. destruct (OK g o eq_refl) as (x & -> & X). destruct x as [f|].
    + split; [apply (SET g c _ E); discriminate|]. cbn [rt_facs]. intros k. destruct IV as (_ & _ & _ & C & _). destruct (C c (nth_error_In _ _ E)) as [_ Y]. rewrite P in Y. destruct Y as (_ & _ & NN). rewrite (set_nth_at _ _ _ _ NN). destruct (k =? i)%nat; [congruence|apply N].
    + split; [apply (SET g c _ E); discriminate|exact N].
Qed.
Lemma good_run es : forall s, good s -> calm es -> good (rrun s es).
Proof.
  induction es as [|e es IH]; intros s G C; [exact G|]. apply IH; [apply good_step; [exact G|]|].
  - intros g o ->. apply (C g o). left. reflexivity.
  - intros g o I. apply (C g o). right. exact I.
Qed.
(** What is left for the call inside. *)
Definition todo (c : rcall) : nat := match rc_pc c with RLook i => 1 + 3 * (4 - i) | RMake i => 3 * (4 - i) | _ => 0 end.
Lemma finish (mk : nat -> option (bytes -> bool)) : forall n s g c, good s -> nth_error (rt_calls s) g = Some c -> inside c -> (todo c <= n)%nat ->
  exists es c', calm es /\ nth_error (rt_calls (rrun s es)) g = Some c' /\ served c' /\ rt_mu (rrun s es) = false /\ length (rt_calls (rrun s es)) = length (rt_calls s)
    /\ rc_phone c' = rc_phone c /\ forall h, h <> g -> nth_error (rt_calls (rrun s es)) h = nth_error (rt_calls s) h.
Proof.
  induction n as [|n IH]; intros s g c G E IC LE.
  - exfalso. pose proof G as ((L & _ & _ & C & _) & D & _). destruct (C c (nth_error_In _ _ E)) as [_ X]. pose proof (D c (nth_error_In _ _ E)) as ND. unfold todo in LE. unfold inside in IC. destruct (rc_pc c); try tauto; lia.
  - pose proof G as ((L & U & M & C & _) & D & N). destruct (C c (nth_error_In _ _ E)) as [_ X]. pose proof (D c (nth_error_In _ _ E)) as ND.
    assert (GO : forall e c1 mu facs made, (forall k o, e = RMade k o -> compiled o) -> rstep s e = RState mu facs (set_nth (rt_calls s) g c1) made -> rc_phone c1 = rc_phone c -> ((inside c1 /\ (todo c1 <= n)%nat) \/ (served c1 /\ mu = false)) ->
      exists es c', calm es /\ nth_error (rt_calls (rrun s es)) g = Some c' /\ served c' /\ rt_mu (rrun s es) = false /\ length (rt_calls (rrun s es)) = length (rt_calls s) /\ rc_phone c' = rc_phone c /\ forall h, h <> g -> nth_error (rt_calls (rrun s es)) h = nth_error (rt_calls s) h).
    { intros e c1 mu facs made OK ST PH WH. pose proof (good_step s e G OK) as G1.
      assert (E1 : nth_error (rt_calls (rstep s e)) g = Some c1) by (rewrite ST; cbn [rt_calls]; rewrite (set_nth_at _ _ _ _ E), Nat.eqb_refl; reflexivity).
      assert (LN : length (rt_calls (rstep s e)) = length (rt_calls s)) by (rewrite ST; apply (set_nth_len _ _ _ _ E)).
      assert (OT : forall h, h <> g -> nth_error (rt_calls (rstep s e)) h = nth_error (rt_calls s) h) by (intros h Nh; rewrite ST; cbn [rt_calls]; rewrite (set_nth_at _ _ _ _ E); destruct (Nat.eqb_spec h g); [contradiction|reflexivity]).
      destruct WH as [[I1 T1]|[S1 M1]].
      - destruct (IH (rstep s e) g c1 G1 E1 I1 T1) as (es & c' & A1 & A2 & A3 & A4 & A5 & A6 & A7). exists (e :: es), c'. cbn [rrun fold_left]. fold (rrun (rstep s e) es).
        split; [intros k o [K|K]; [apply (OK k o K)|apply (A1 k o K)]|]. repeat match goal with |- _ /\ _ => split end; auto; [lia|congruence|]. intros h Nh. rewrite A7 by exact Nh. auto.
      - exists [e], c1. cbn [rrun fold_left]. split; [intros k o [K|[]]; exact (OK k o K)|]. repeat match goal with |- _ /\ _ => split end; auto. rewrite ST. exact M1. }
    unfold inside in IC. unfold todo in LE. destruct (rc_pc c) as [|i|i|o|] eqn:P; try tauto.
    + destruct X as [Li UP]. destruct (nth_error (rt_facs s) i) as [[[m|]|]|] eqn:Q.
      * assert (i < 3)%nat by (rewrite <- L; apply nth_error_Some; congruence). destruct (m (rc_phone c)) eqn:MP; eapply (GO (RStep g)); try (intros k o K; discriminate K); [cbn [rstep]; rewrite E, P, Q, MP; unfold at_pc; reflexivity|reflexivity|right; split; [eexists; reflexivity|reflexivity]|cbn [rstep]; rewrite E, P, Q, MP; unfold at_pc; reflexivity|reflexivity|left; split; [exact I|cbn [todo rc_pc]; lia]].
      * exfalso. exact (N i Q).
      * assert (i < 3)%nat by (rewrite <- L; apply nth_error_Some; congruence). eapply (GO (RStep g)); try (intros k o K; discriminate K); [cbn [rstep]; rewrite E, P, Q; unfold at_pc; reflexivity|reflexivity|left; split; [exact I|cbn [todo rc_pc]; lia]].
      * eapply (GO (RStep g)); try (intros k o K; discriminate K); [cbn [rstep]; rewrite E, P, Q; unfold at_pc; reflexivity|reflexivity|right; split; [eexists; reflexivity|reflexivity]].
    + destruct X as (Li & UP & NN). destruct (mk i) as [m|] eqn:K.
      * (* set up, then looked at *)
        pose proof (good_step s (RMade g (Ok (Some (Some m)))) G ltac:(intros k o X; injection X as _ <-; exists (Some (Some m)); split; [reflexivity|discriminate])) as G1.
        set (c1 := RCall (rc_phone c) (RLook i) (rc_none c)).
        assert (ST1 : rstep s (RMade g (Ok (Some (Some m)))) = RState (rt_mu s) (set_nth (rt_facs s) i (Some (Some m))) (set_nth (rt_calls s) g c1) (rt_made s ++ [i])) by (cbn [rstep]; rewrite E, P; reflexivity).
        assert (E1 : nth_error (set_nth (rt_calls s) g c1) g = Some c1) by (rewrite (set_nth_at _ _ _ _ E), Nat.eqb_refl; reflexivity).
        assert (F1 : nth_error (set_nth (rt_facs s) i (Some (Some m))) i = Some (Some (Some m))) by (rewrite (set_nth_at _ _ _ _ NN), Nat.eqb_refl; reflexivity).
        set (c2 := RCall (rc_phone c) (if m (rc_phone c) then RDone (Some i) else RLook (S i)) (rc_none c)).
        set (s1 := rstep s (RMade g (Ok (Some (Some m))))) in *.
        assert (ST2 : rstep s1 (RStep g) = RState (if m (rc_phone c) then false else rt_mu s) (set_nth (rt_facs s) i (Some (Some m))) (set_nth (set_nth (rt_calls s) g c1) g c2) (rt_made s ++ [i])).
        { rewrite ST1. cbn [rstep rt_calls]. rewrite E1. cbn [rc_pc c1 rt_facs]. rewrite F1. unfold c2, at_pc. cbn [rt_facs rt_calls rt_made rt_mu rc_phone rc_none c1]. destruct (m (rc_phone c)); reflexivity. }
        assert (G2 : good (rstep s1 (RStep g))) by (apply good_step; [exact G1|intros k o X; discriminate X]).
        assert (E2 : nth_error (rt_calls (rstep s1 (RStep g))) g = Some c2) by (rewrite ST2; cbn [rt_calls]; rewrite (set_nth_at _ _ _ _ E1), Nat.eqb_refl; reflexivity).
        assert (OT : forall h, h <> g -> nth_error (rt_calls (rstep s1 (RStep g))) h = nth_error (rt_calls s) h) by (intros h Nh; rewrite ST2; cbn [rt_calls]; rewrite (set_nth_at _ _ _ _ E1), (set_nth_at _ _ _ _ E); destruct (Nat.eqb_spec h g); [contradiction|reflexivity]).
        assert (LN : length (rt_calls (rstep s1 (RStep g))) = length (rt_calls s)) by (rewrite ST2; cbn [rt_calls]; rewrite (set_nth_len _ _ _ _ E1); apply (set_nth_len _ _ _ _ E)).
        assert (CALM : forall es, calm es -> calm (RMade g (Ok (Some (Some m))) :: RStep g :: es)) by (intros es A k o [X|[X|X]]; [injection X as _ <-; exists (Some (Some m)); split; [reflexivity|discriminate]|discriminate X|exact (A k o X)]).
        destruct (m (rc_phone c)) eqn:MP.
        -- exists [RMade g (Ok (Some (Some m))); RStep g], c2. change (rrun s [RMade g (Ok (Some (Some m))); RStep g]) with (rstep s1 (RStep g)).
           split; [apply CALM; intros k o []|]. split; [exact E2|]. split; [eexists; reflexivity|]. split; [rewrite ST2; reflexivity|]. split; [exact LN|]. split; [reflexivity|exact OT].
        -- destruct (IH (rstep s1 (RStep g)) g c2 G2 E2 ltac:(exact I) ltac:(cbn [todo rc_pc c2]; lia)) as (es & c' & A1 & A2 & A3 & A4 & A5 & A6 & A7).
           exists (RMade g (Ok (Some (Some m))) :: RStep g :: es), c'. change (rrun s (RMade g (Ok (Some (Some m))) :: RStep g :: es)) with (rrun (rstep s1 (RStep g)) es).
           split; [apply CALM, A1|]. repeat match goal with |- _ /\ _ => split end; auto; [lia|]. intros h Nh. rewrite A7 by exact Nh. auto.
      * eapply (GO (RMade g (Ok None))); [intros k o X; injection X as _ <-; exists None; split; [reflexivity|discriminate]|cbn [rstep]; rewrite E, P; reflexivity|reflexivity|left; split; [exact I|cbn [todo rc_pc]; lia]].
Qed.
Theorem C85_progress_partial : forall es, calm es -> forall mk : nat -> option (bytes -> bool), forall g c, nth_error (rt_calls (rrun rstart es)) g = Some c ->
  exists es' c', calm es' /\ nth_error (rt_calls (rrun rstart (es ++ es'))) g = Some c' /\ rc_phone c' = rc_phone c /\ served c'.
Proof.
  intros es CALM mk g c E. assert (G : good (rrun rstart es)).
  { apply good_run; [|exact CALM]. split; [exact rinv_start|]. split; [intros x []|]. intros i X. do 3 (destruct i as [|i]; [discriminate X|]). destruct i; discriminate X. }
  set (s := rrun rstart es) in *.
  assert (FREE : exists es1, calm es1 /\ good (rrun s es1) /\ (exists c1, nth_error (rt_calls (rrun s es1)) g = Some c1 /\ rc_phone c1 = rc_phone c /\ (served c1 \/ (rc_pc c1 = RWait /\ rt_mu (rrun s es1) = false)))).
  { destruct (rt_mu s) eqn:MU.
    - pose proof G as ((_ & U & M & _) & D & _). apply M in MU as (h & d & H & ID). destruct (finish mk _ s h d G H ID (le_n _)) as (es1 & d' & A1 & A2 & A3 & A4 & A5 & A6 & A7).
      exists es1. split; [exact A1|]. split; [apply good_run; assumption|]. destruct (Nat.eq_dec g h) as [->|Ngh]; [rewrite E in H; injection H as <-; exists d'; auto|]. exists c. rewrite A7 by exact Ngh. split; [exact E|]. split; [reflexivity|].
      destruct (rc_pc c) eqn:P; [right; auto| | |left; eexists; exact P|exfalso; exact (D c (nth_error_In _ _ E) P)]; exfalso; apply Ngh; apply U; [exists c|exists d|exists c|exists d]; split; auto; unfold inside; rewrite P; exact I.
    - exists []. split; [intros k o []|]. split; [exact G|]. exists c. split; [exact E|]. split; [reflexivity|]. pose proof G as ((_ & U & M & _) & D & _).
      destruct (rc_pc c) eqn:P; [right; auto| | |left; eexists; exact P|exfalso; exact (D c (nth_error_In _ _ E) P)]; exfalso; assert (rt_mu s = true) by (apply M; exists g, c; split; [exact E|unfold inside; rewrite P; exact I]); congruence. }
  destruct FREE as (es1 & A1 & G1 & c1 & E1 & P1 & [S1|[W1 M1]]).
  - exists es1, c1. rewrite rrun_app. auto.
  - set (s1 := rrun s es1) in *. set (c2 := RCall (rc_phone c1) (RLook 0) (rc_none c1)).
    assert (ST : rstep s1 (RLock g) = RState true (rt_facs s1) (set_nth (rt_calls s1) g c2) (rt_made s1)) by (cbn [rstep]; rewrite E1, W1, M1; reflexivity).
    assert (E2 : nth_error (rt_calls (rstep s1 (RLock g))) g = Some c2) by (rewrite ST; cbn [rt_calls]; rewrite (set_nth_at _ _ _ _ E1), Nat.eqb_refl; reflexivity).
    assert (G2 : good (rstep s1 (RLock g))) by (apply good_step; [exact G1|intros k o X; discriminate X]).
    destruct (finish mk _ _ g c2 G2 E2 ltac:(exact I) (le_n _)) as (es2 & c3 & B1 & B2 & B3 & B4 & B5 & B6 & B7).
    exists (es1 ++ RLock g :: es2), c3. split; [|split; [|split; [cbn [rc_phone c2] in B6; congruence|exact B3]]].
    + intros k o I. apply in_app_or in I as [I|[I|I]]; [exact (A1 k o I)|discriminate I|exact (B1 k o I)].
    + rewrite !rrun_app. change (rrun (rrun (rrun rstart es) es1) (RLock g :: es2)) with (rrun (rstep s1 (RLock g)) es2). exact B2.
Qed.
(** Three sends at the same time: the first sets up the first two carriers and finds its number with
    the second; the others wait, then go through. *)
Example C85_case :
  let one d := Some (fun s : bytes => match s with x :: _ => Z.eqb x d | [] => false end) in
  let es := [RNew [50]; RNew [49]; RNew [57]; RLock 0; RLock 1; RStep 0; RStep 2; RMade 0 (Ok (Some (one 49))); RStep 0; RStep 0; RMade 0 (Ok (Some (one 50))); RStep 0;
             RLock 1; RLock 2; RStep 1; RLock 2; RStep 2; RStep 2; RStep 2; RMade 2 (Ok None); RStep 2] in
  let s := rrun rstart es in
  map rc_pc (rt_calls s) = [RDone (Some 1%nat); RDone (Some 0%nat); RDone None] /\ rt_made s = [0; 1]%nat /\ rt_mu s = false /\ calm es.
Proof.
  cbv zeta. repeat match goal with |- _ /\ _ => split end; try reflexivity.
  intros g o H. cbn [In] in H. repeat (destruct H as [H|H]; [try discriminate H; injection H as _ <-; eexists; (split; [reflexivity|discriminate])|]). destruct H.
Qed.
(** The second carrier's expression does not compile: the send to a number of the third one dies, and
    a number of the first carrier, already set up, no longer gets through. *)
Example C85_case_dead :
  let one d := Some (fun s : bytes => match s with x :: _ => Z.eqb x d | [] => false end) in
  let es := [RNew [49]; RLock 0; RStep 0; RMade 0 (Ok (Some (one 49))); RStep 0; RNew [51]; RNew [49]; RLock 1; RStep 1; RStep 1; RMade 1 (Ok (Some None)); RStep 1] in
  map rc_pc (rt_calls (rrun rstart es)) = [RDone (Some 0%nat); RDead; RWait] /\ map rc_pc (rt_calls (rrun rstart (es ++ [RLock 2; RStep 2; RStep 2; RLock 2; RStep 1]))) = [RDone (Some 0%nat); RDead; RWait].
Proof. split; reflexivity. Qed.
(** The first gateway accepts the connection and never answers the login: nothing else is sent. *)
Example C85_case_silent :
  let es := [RNew [49]; RNew [50]; RLock 0; RStep 0] in
  map rc_pc (rt_calls (rrun rstart es)) = [RMake 0; RWait] /\ map rc_pc (rt_calls (rrun rstart (es ++ [RLock 1; RStep 1; RStep 0; RNew [51]; RLock 2]))) = [RMake 0; RWait; RWait].
Proof. split; reflexivity. Qed.
Print Assumptions C85_exclusive.
Print Assumptions C85_first.
Print Assumptions C85_numbers.
Print Assumptions C85_kept.
Print Assumptions C85_refuted_dead.
Print Assumptions C85_refuted_silent.
Print Assumptions C85_dead_iff.
Print Assumptions C85_progress_partial.
