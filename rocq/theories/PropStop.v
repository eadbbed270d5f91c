(** * PropStop: properties C90 (stopping the client closes its connections) and C91 (the
    client holds no more connections than configured).  Model: StopModel.v. *)
From Verif Require Import Base StopModel.

(** ** Specification *)
(** The configured number of connections; none or a negative one means two. *)
Definition configured (conf m : Z) : Prop := (0 < conf /\ m = conf) \/ (conf <= 0 /\ m = 2).
(** Logins the gateway refused among the connection attempts. *)
Definition refusals (first : dialled) (es : list ev) : nat :=
  ((match first with DRefused => 1 | _ => 0 end)
   + length (filter (fun e => match e with EDial DRefused => true | _ => false end) es))%nat.
Definition reachable (conf : Z) (s : st) : Prop := exists d es, s = run conf (start d) es.
(** The hooks were started and have returned. *)
Definition hooks_done (s : st) : Prop := s_begun s = true /\ s_todo s = [].
(** The maintenance goroutine has no round ahead of it and is not connecting. *)
Definition quiet (s : st) : Prop := s_pend s = false /\ (s_m s = MIdle \/ s_m s = MTop \/ s_m s = MSleep).

Lemma configured_of conf m : configured conf m -> max_of conf = m.
Proof. unfold configured, max_of. intros [[A ->]|[A ->]]; destruct (conf <=? 0) eqn:E; lia. Qed.

(** ** Helpers *)
Lemma mem_In c l : mem c l = true <-> In c l.
Proof.
  unfold mem. rewrite existsb_exists. split.
  - intros (x & A & B). apply Nat.eqb_eq in B. subst. exact A.
  - intros A. exists c. split; [exact A|apply Nat.eqb_refl].
Qed.
Lemma del_In c x l : In x (del c l) <-> In x l /\ x <> c.
Proof.
  unfold del. rewrite filter_In. split; intros [A B]; (split; [exact A|]).
  - intros ->. rewrite Nat.eqb_refl in B. discriminate B.
  - destruct (Nat.eqb c x) eqn:E; [apply Nat.eqb_eq in E; congruence|reflexivity].
Qed.
Lemma nth_set_at i c l k : (i < length l)%nat -> nth_error (set_at i c l) k = if Nat.eqb k i then Some c else nth_error l k.
Proof.
  unfold set_at. revert i k. induction l as [|x l IH]; intros i k H; [cbn in H; lia|].
  destruct i as [|i]; destruct k as [|k]; cbn; try reflexivity. cbn in H. apply IH. lia.
Qed.
Lemma len_set_at i c l : (i < length l)%nat -> length (set_at i c l) = length l.
Proof.
  intros H. unfold set_at. rewrite app_length. cbn [length]. rewrite firstn_length, skipn_length. lia.
Qed.
Lemma nth_swap i j l k a b : nth_error l i = Some a -> nth_error l j = Some b ->
  nth_error (swap i j l) k = if Nat.eqb k j then Some a else if Nat.eqb k i then Some b else nth_error l k.
Proof.
  intros A B. unfold swap. rewrite A, B. assert (i < length l)%nat by (apply nth_error_Some; congruence).
  assert (j < length l)%nat by (apply nth_error_Some; congruence).
  rewrite nth_set_at by (rewrite len_set_at; lia). rewrite nth_set_at by lia. reflexivity.
Qed.
Lemma len_swap i j l : length (swap i j l) = length l.
Proof.
  unfold swap. destruct (nth_error l i) eqn:A; [|reflexivity]. destruct (nth_error l j) eqn:B; [|reflexivity].
  assert (i < length l)%nat by (apply nth_error_Some; congruence). assert (j < length l)%nat by (apply nth_error_Some; congruence).
  rewrite len_set_at by (rewrite len_set_at; lia). apply len_set_at. lia.
Qed.
Lemma swap_In i j l x : In x (swap i j l) <-> In x l.
Proof.
  destruct (nth_error l i) as [a|] eqn:A; [|unfold swap; rewrite A; tauto].
  destruct (nth_error l j) as [b|] eqn:B; [|unfold swap; rewrite A, B; tauto].
  split; intros H; apply In_nth_error in H; destruct H as [k H].
  - rewrite (nth_swap i j l k a b A B) in H.
    destruct (Nat.eqb k j); [injection H as <-; exact (nth_error_In _ _ A)|].
    destruct (Nat.eqb k i); [injection H as <-; exact (nth_error_In _ _ B)|exact (nth_error_In _ _ H)].
  - destruct (Nat.eqb k i) eqn:E1.
    + apply Nat.eqb_eq in E1. subst k. apply (nth_error_In _ j). rewrite (nth_swap i j l j a b A B), Nat.eqb_refl. congruence.
    + destruct (Nat.eqb k j) eqn:E2.
      * apply Nat.eqb_eq in E2. subst k. destruct (Nat.eqb i j) eqn:E3.
        -- apply Nat.eqb_eq in E3. subst j. rewrite Nat.eqb_refl in E1. discriminate.
        -- apply (nth_error_In _ i). rewrite (nth_swap i j l i a b A B), E3, Nat.eqb_refl. congruence.
      * apply (nth_error_In _ k). rewrite (nth_swap i j l k a b A B), E2, E1. exact H.
Qed.
Lemma swap_NoDup i j l : NoDup l -> NoDup (swap i j l).
Proof.
  intros N. apply (@NoDup_incl_NoDup nat l); [exact N|rewrite len_swap; lia|intros x H; apply swap_In; exact H].
Qed.

Lemma flt_le {A} (f : A -> bool) l : (length (filter f l) <= length l)%nat.
Proof. induction l as [|x l IH]; cbn; [lia|]. destruct (f x); cbn; lia. Qed.

(** ** What holds in every reachable state *)
Record inv (conf : Z) (s : st) : Prop := Inv {
  i_nl : NoDup (s_list s);
  i_no : NoDup (s_open s);
  i_bl : forall c, In c (s_list s) -> (c < s_next s)%nat;
  i_bo : forall c, In c (s_open s) -> (c < s_next s)%nat;
  i_acc : forall c, In c (s_open s) -> In c (s_list s) \/ In c (s_left s);
  i_apart : forall c, In c (s_list s) -> ~ In c (s_left s);
  i_bf : forall c, In c (s_left s) -> (c < s_next s)%nat;
  i_max : zlen (s_list s) <= max_of conf;
  i_dial : s_m s = MDial -> zlen (s_list s) < max_of conf }.

Lemma max_pos conf : 1 <= max_of conf.
Proof. unfold max_of. destruct (conf <=? 0) eqn:E; lia. Qed.

Lemma inv_start conf d : inv conf (start d).
Proof.
  pose proof (max_pos conf).
  assert (N1 : NoDup [0%nat]) by (constructor; [intros []|constructor]). assert (N0 : NoDup (@nil nat)) by constructor.
  destruct d; constructor; cbn [start s_list s_open s_left s_next s_m]; auto;
    try (change (zlen (@nil nat)) with 0; lia); try (change (zlen [0%nat]) with 1; lia); try discriminate;
    intros c K; repeat match goal with H : In _ [] |- _ => destruct H | H : In _ [_] |- _ => destruct H as [H|[]]; subst end; try lia; auto.
Qed.

Lemma inv_open conf s c : inv conf s -> inv conf (with_open s (del c (s_open s))).
Proof.
  intros [A B C D E F G H I]. constructor; cbn; auto.
  - apply NoDup_filter. exact B.
  - intros x K. apply del_In in K. apply D. tauto.
  - intros x K. apply del_In in K. apply E. tauto.
Qed.
Lemma inv_todo conf s t : inv conf s -> inv conf (with_todo s t).
Proof. intros [A B C D E F G H I]. constructor; cbn; auto. Qed.

Lemma inv_step conf s e : inv conf s -> inv conf (step conf s e).
Proof.
  intros V. destruct e as [f| | | |i j| | |d| |c|c]; cbn [step].
  - destruct (s_begun s); [exact V|]. destruct V. constructor; cbn; auto.
  - unfold hook. destruct (s_todo s) as [|[| | |i n old] r]; [exact V| | | |].
    + destruct V. constructor; cbn; auto.
    + destruct V. constructor; cbn; auto.
    + apply inv_todo, V.
    + destruct (i <? n)%nat; [|apply inv_todo, V].
      destruct (nth_error _ i); [apply inv_todo, inv_open, V|apply inv_todo, V].
  - destruct (s_stopped s); [exact V|]. destruct V. constructor; cbn; auto.
  - destruct (s_m s) eqn:M; try exact V. destruct (s_pend s); [|exact V]. destruct V. constructor; cbn; auto. discriminate.
  - destruct (s_m s) eqn:M; try exact V. destruct V as [A B C D E F G H I]. constructor; cbn; auto.
    + apply swap_NoDup, A.
    + intros c K. apply (proj1 (swap_In _ _ _ _)) in K. apply C. exact K.
    + intros c K. destruct (E c K) as [K1|K1]; [left; apply swap_In; exact K1|right; exact K1].
    + intros c K. apply (proj1 (swap_In _ _ _ _)) in K. apply F. exact K.
    + unfold zlen in *. rewrite len_swap. exact H.
    + discriminate.
  - destruct (s_m s) eqn:M; try exact V. destruct V as [A B C D E F G H I]. constructor; cbn.
    + apply NoDup_filter, A.
    + apply NoDup_filter, B.
    + intros c K. apply filter_In in K. apply C. tauto.
    + intros c K. apply filter_In in K. apply D. tauto.
    + intros c K. apply filter_In in K. destruct K as [K1 K2]. destruct (E c K1) as [K|K]; [|right; exact K].
      left. apply filter_In. split; [exact K|]. destruct (healthy s c) eqn:HC; [reflexivity|exfalso].
      assert (X : mem c (filter (fun c0 => negb (healthy s c0)) (s_list s)) = true).
      { apply mem_In. apply filter_In. split; [exact K|]. rewrite HC. reflexivity. }
      rewrite X in K2. discriminate K2.
    + intros c K. apply filter_In in K. apply F. tauto.
    + exact G.
    + unfold zlen in *. pose proof (flt_le (healthy s) (s_list s)). lia.
    + discriminate.
  - destruct (s_m s) eqn:M; try exact V. destruct (zlen (s_list s) <? max_of conf) eqn:Z.
    + destruct (s_cancel s); destruct V as [A B C D E F G H I]; constructor; cbn; auto; try discriminate. intros _. lia.
    + destruct V as [A B C D E F G H I]; constructor; cbn; auto; discriminate.
  - destruct (s_m s) eqn:M; try exact V. destruct V as [A B C D E F G H I]. specialize (I M).
    assert (NO : ~ In (s_next s) (s_open s)) by (intros K; apply D in K; lia).
    assert (NL : ~ In (s_next s) (s_list s)) by (intros K; apply C in K; lia).
    assert (NF : ~ In (s_next s) (s_left s)) by (intros K; apply G in K; lia).
    assert (ND : NoDup (s_list s ++ [s_next s])).
    { apply NoDup_Add with (a := s_next s) (l := s_list s); [|split; assumption].
      rewrite <- (app_nil_r (s_list s)) at 1. apply Add_app. }
    destruct d; constructor; cbn; auto; try discriminate.
    all: try (constructor; assumption).
    all: try (intros c K; try (apply C in K || apply D in K || apply G in K); lia).
    all: try (intros c [K|K]; [lia|try (apply C in K || apply D in K || apply G in K); lia]).
    + intros c [K|K]; [auto|]. destruct (E c K); auto.
    + intros c K [L|L]; [subst c; contradiction|exact (F c K L)].
    + intros c K. apply in_app_or in K. destruct K as [K|[K|[]]]; [apply C in K; lia|lia].
    + intros c [K|K]; [left; apply in_or_app; right; left; exact K|]. destruct (E c K) as [L|L]; [left; apply in_or_app; left; exact L|right; exact L].
    + intros c K L. apply in_app_or in K. destruct K as [K|[K|[]]]; [exact (F c K L)|subst c; contradiction].
    + unfold zlen in *. rewrite app_length. cbn [length]. lia.
    + intros c K. apply in_app_or in K. destruct K as [K|[K|[]]]; [apply C in K; lia|lia].
    + intros c [K|K]; [left; apply in_or_app; right; left; exact K|]. destruct (E c K) as [L|L]; [left; apply in_or_app; left; exact L|right; exact L].
    + intros c K L. apply in_app_or in K. destruct K as [K|[K|[]]]; [exact (F c K L)|subst c; contradiction].
    + unfold zlen in *. rewrite app_length. cbn [length]. lia.
  - destruct (s_m s) eqn:M; try exact V. destruct V as [A B C D E F G H I]; constructor; cbn; auto; discriminate.
  - destruct (mem c (s_list s)); [apply inv_open, V|exact V].
  - destruct (mem c (s_left s)); [apply inv_open, V|exact V].
Qed.

Lemma inv_run conf es : forall s, inv conf s -> inv conf (run conf s es).
Proof. induction es as [|e es IH]; intros s V; [exact V|]. cbn. apply IH, inv_step, V. Qed.
Lemma inv_reach conf s : reachable conf s -> inv conf s.
Proof. intros (d & es & ->). apply inv_run, inv_start. Qed.

(** ** C91: how many connections the client holds *)
Lemma left_bound conf : forall es s, (length (s_left (run conf s es)) <= length (s_left s) + length (filter (fun e => match e with EDial DRefused => true | _ => false end) es))%nat.
Proof.
  induction es as [|e es IH]; intros s; [cbn; lia|]. change (run conf s (e :: es)) with (run conf (step conf s e) es).
  specialize (IH (step conf s e)).
  assert (H : (length (s_left (step conf s e)) <= length (s_left s) + match e with EDial DRefused => 1 | _ => 0 end)%nat).
  { destruct e as [f| | | |i j| | |d| |c|c]; cbn [step]; unfold hook;
      repeat match goal with |- context [match ?x with _ => _ end] => destruct x eqn:?; cbn [s_left with_todo with_open with_m length]; try lia end; cbn [s_left with_todo with_open with_m length]; try lia. }
  cbn [filter]. destruct e as [f| | | |i j| | |[]| |c|c]; cbn [length] in *; lia.
Qed.

(** Every open connection belongs to a session of the list or to a refused login; there are
    never more sessions than configured, never more open connections than sessions and
    refused logins together. *)
Theorem C91_bound_partial : forall conf m d es, configured conf m ->
  let s := run conf (start d) es in
  zlen (s_list s) <= m
  /\ (forall c, In c (s_open s) -> In c (s_list s) \/ In c (s_left s))
  /\ NoDup (s_open s) /\ (length (s_open s) <= length (s_list s) + refusals d es)%nat
  /\ (refusals d es = 0%nat -> zlen (s_open s) <= m).
Proof.
  intros conf m d es M s. pose proof (inv_run conf es _ (inv_start conf d)) as [A B C D E F G H I]. fold s in A, B, C, D, E, F, G, H, I.
  rewrite (configured_of conf m M) in H.
  assert (L : (length (s_open s) <= length (s_list s ++ s_left s))%nat).
  { apply NoDup_incl_length; [exact B|]. intros c K. apply in_or_app. exact (E c K). }
  rewrite app_length in L. pose proof (left_bound conf es (start d)) as LB. fold s in LB.
  assert (SL : length (s_left (start d)) = match d with DRefused => 1%nat | _ => 0%nat end) by (destruct d; reflexivity).
  rewrite SL in LB. unfold refusals.
  repeat match goal with |- _ /\ _ => split end; auto; [lia|]. intros Z. unfold zlen in *. lia.
Qed.

(** Full claim refuted: a gateway that accepts connections and refuses the login leaves the
    client with any number of open connections and not one session, whatever is configured. *)
Theorem C91_refuted : forall conf n, exists es,
  let s := run conf (start DRefused) es in
  zlen (s_open s) = Z.of_nat n + 1 /\ s_list s = [] /\ s_begun s = false
  /\ forall c, In c (s_open s) -> In c (s_left s).
Proof.
  intros conf n. exists ([ETick; ETake; EPrune] ++ concat (repeat [ETop; EDial DRefused; EWake] n)).
  unfold run. rewrite fold_left_app. cbn [fold_left step start s_stopped s_pend s_m s_list s_open s_half s_left s_next s_cancel s_begun s_todo filter map negb mem existsb].
  assert (G : forall n o nx, (forall c, In c o -> In c o) ->
    fold_left (step conf) (concat (repeat [ETop; EDial DRefused; EWake] n)) (St [] o [] o nx false false false MTop false [])
    = let o' := rev (seq nx n) ++ o in St [] o' [] o' (nx + n) false false false MTop false []).
  { clear. induction n as [|n IH]; intros o nx _; [cbn; rewrite Nat.add_0_r; reflexivity|].
    cbn [repeat concat app fold_left step s_m s_list]. change (zlen (@nil nat)) with 0.
    assert (X : (0 <? max_of conf) = true) by (pose proof (max_pos conf); lia). rewrite X. cbn [step s_cancel with_m s_m s_list s_open s_half s_left s_next s_pend s_stopped s_begun s_todo].
    unfold with_m. cbn [s_list s_open s_half s_left s_next s_pend s_stopped s_cancel s_begun s_todo]. rewrite IH by auto. cbn [seq rev]. rewrite <- app_assoc. cbn [app]. replace (S nx + n)%nat with (nx + S n)%nat by lia. reflexivity. }
  rewrite G by auto. cbn [s_open s_list s_begun s_left]. unfold zlen. rewrite app_length, rev_length, seq_length. cbn [length].
  split; [lia|]. split; [reflexivity|]. split; [reflexivity|auto].
Qed.

(** Non-vacuity: a session is lost and replaced, another login is refused, a third one gets no
    answer: two sessions, three connections; the next round closes the unusable one. *)
Example C91_case :
  let a := [ELost 0; ETick; ETake; EPrune; ETop; EDial DMade; EWake; ETop; EDial DRefused; EWake; ETop; EDial DHalf; EWake; ETop] in
  let s := run 2 (start DMade) a in
  configured 2 2 /\ refusals DMade a = 1%nat
  /\ s_list s = [1; 3]%nat /\ s_open s = [3; 2; 1]%nat
  /\ s_list (run 2 s [ETick; ETake; EPrune]) = [1]%nat /\ s_open (run 2 s [ETick; ETake; EPrune]) = [2; 1]%nat
  /\ s_open (run 2 s [ETick; ETake; EPrune; EGc 2]) = [1]%nat.
Proof. split; [left; lia|]. vm_compute. repeat split; reflexivity. Qed.

(** ** C90: stopping *)
(** What a run after the cancel signal keeps, when that signal found the client quiet. *)
Lemma filter_all {A} (f : A -> bool) l : (forall x, In x l -> f x = true) -> filter f l = l.
Proof. induction l as [|x l IH]; intros H; [reflexivity|]. cbn. rewrite (H x (or_introl eq_refl)). f_equal. apply IH. intros y K. apply H. right. exact K. Qed.

Definition closing_of (L : list nat) (o : list nat) (t : list task) : Prop :=
  t = [TClose]
  \/ (exists i, t = [TLoop i (length L) None] /\ forall k c, (k < i)%nat -> nth_error L k = Some c -> ~ In c o)
  \/ (t = [] /\ forall c, In c L -> ~ In c o).
Record calm (L : list nat) (nx : nat) (s : st) : Prop := Calm {
  c_list : s_list s = L;
  c_next : s_next s = nx;
  c_begun : s_begun s = true;
  c_stopped : s_stopped s = true;
  c_pend : s_pend s = false;
  c_m : s_m s = MIdle \/ ((s_m s = MTop \/ s_m s = MSleep) /\ s_cancel s = true);
  c_todo : closing_of L (s_open s) (s_todo s) }.

Lemma closing_del L o t c : closing_of L o t -> closing_of L (del c o) t.
Proof.
  intros [->|[(i & -> & H)|[-> H]]]; [left; reflexivity|right; left; exists i; split; [reflexivity|]|right; right; split; [reflexivity|]].
  - intros k x A B K. apply del_In in K. exact (H k x A B (proj1 K)).
  - intros x A K. apply del_In in K. exact (H x A (proj1 K)).
Qed.

Lemma calm_step conf L nx s e : calm L nx s -> calm L nx (step conf s e) /\ incl (s_open (step conf s e)) (s_open s).
Proof.
  intros V. destruct V as [A B C D E F G] eqn:EV. clear EV.
  assert (SAME : calm L nx s /\ incl (s_open s) (s_open s)) by (split; [exact V|intros x; auto]).
  destruct e as [f| | | |i j| | |d| |c|c]; cbn [step].
  - rewrite C. exact SAME.
  - unfold hook. destruct G as [G|[(i & G & H)|[G H]]]; rewrite G.
    + split; [|intros x; auto]. constructor; cbn; auto. right. left. exists 0%nat. rewrite A. split; [reflexivity|]. intros k c K. lia.
    + destruct (i <? length L)%nat eqn:Q.
      * rewrite A. destruct (nth_error L i) as [c|] eqn:N; [|apply Nat.ltb_lt in Q; apply nth_error_Some in Q; congruence].
        cbn. split; [|intros x K; apply del_In in K; tauto]. constructor; cbn; auto. right. left. exists (S i). split; [reflexivity|].
        intros k x K1 K2 K3. apply del_In in K3. destruct K3 as [K3 K4]. destruct (Nat.eq_dec k i) as [->|NE]; [congruence|]. apply (H k x ltac:(lia) K2 K3).
      * split; [|intros x; auto]. constructor; cbn; auto. right. right. split; [reflexivity|]. intros c K1 K2.
        apply In_nth_error in K1. destruct K1 as [k K1]. apply (H k c); auto. apply Nat.ltb_ge in Q.
        assert (k < length L)%nat by (apply nth_error_Some; congruence). lia.
    + exact SAME.
  - rewrite D. exact SAME.
  - destruct (s_m s); try exact SAME. rewrite E. exact SAME.
  - destruct (s_m s) eqn:M; try exact SAME. exfalso. intuition congruence.
  - destruct (s_m s) eqn:M; try exact SAME. exfalso. intuition congruence.
  - destruct (s_m s) eqn:M; try exact SAME. destruct F as [F|[_ F]]; [congruence|].
    destruct (zlen (s_list s) <? max_of conf).
    + rewrite F. split; [|intros x; auto]. constructor; cbn; auto.
    + split; [|intros x; auto]. constructor; cbn; auto.
  - destruct (s_m s) eqn:M; try exact SAME. exfalso. intuition congruence.
  - destruct (s_m s) eqn:M; try exact SAME. destruct F as [F|[_ F]]; [congruence|]. split; [|intros x; auto]. constructor; cbn; auto.
  - destruct (mem c (s_list s)); [|exact SAME]. split; [|intros x K; apply del_In in K; tauto]. constructor; cbn; auto. apply closing_del, G.
  - destruct (mem c (s_left s)); [|exact SAME]. split; [|intros x K; apply del_In in K; tauto]. constructor; cbn; auto. apply closing_del, G.
Qed.
Lemma calm_run conf L nx es : forall s, calm L nx s -> calm L nx (run conf s es) /\ incl (s_open (run conf s es)) (s_open s).
Proof.
  induction es as [|e es IH]; intros s V; [split; [exact V|intros x; auto]|]. cbn. destruct (calm_step conf L nx s e V) as [V1 I1].
  destruct (IH _ V1) as [V2 I2]. split; [exact V2|]. intros x K. apply I1, I2, K.
Qed.

(** The ticker is stopped when its cancel signal is due. *)
Definition shape (s : st) : Prop :=
  (s_begun s = false /\ s_todo s = [])
  \/ (s_begun s = true /\ (exists r, s_todo s = TStop :: r)
       \/ s_begun s = true /\ (exists t, s_todo s = t :: [TStop; TCancel] /\ t <> TCancel)
       \/ s_begun s = true /\ s_stopped s = true).
Lemma shape_step conf s e : shape s -> shape (step conf s e).
Proof.
  intros V. assert (K : forall s', s_begun s' = s_begun s -> s_todo s' = s_todo s -> s_stopped s' = s_stopped s -> shape s').
  { intros s' A B C. unfold shape in *. rewrite A, B, C. exact V. }
  destruct e as [f| | | |i j| | |d| |c|c]; cbn [step].
  - destruct (s_begun s) eqn:B; [exact V|]. unfold shape. cbn. right. destruct f; [left|right; left]; (split; [reflexivity|]); eexists; try reflexivity. split; [reflexivity|discriminate].
  - unfold hook. unfold shape in *. destruct (s_todo s) as [|t r] eqn:T; [rewrite T; exact V|].
    destruct V as [[_ V]|V]; [discriminate V|]. right.
    destruct t as [| | |i n old].
    + right; right. cbn. split; [|reflexivity]. tauto.
    + right; right. cbn. destruct V as [[_ (r' & V)]|[[_ (t & V & W)]|V]]; [discriminate|injection V as <- _; congruence|exact V].
    + cbn. destruct V as [[_ (r' & V)]|[[Bg (t & V & W)]|V]]; [discriminate| |right; right; exact V].
      right; left. split; [exact Bg|]. injection V as <- ->. eexists. split; [reflexivity|discriminate].
    + destruct V as [[_ (r' & V)]|[[Bg (t & V & W)]|V]]; [discriminate| |].
      * injection V as <- ->. destruct (i <? n)%nat; [|cbn; left; split; [exact Bg|eexists; reflexivity]].
        right; left. destruct (nth_error _ i); cbn; (split; [exact Bg|]); eexists; (split; [reflexivity|discriminate]).
      * right; right. destruct (i <? n)%nat; [|exact V]. destruct (nth_error _ i); exact V.
  - destruct (s_stopped s) eqn:ST; [exact V|]. apply K; cbn; auto.
  - destruct (s_m s); try exact V. destruct (s_pend s); [apply K; reflexivity|exact V].
  - destruct (s_m s); try exact V; apply K; reflexivity.
  - destruct (s_m s); try exact V. unfold shape in *. cbn.
    destruct V as [[A B]|[[A (r & B)]|[[A (t & B & W)]|V]]].
    + left. rewrite B. auto.
    + right; left. rewrite B. split; [exact A|]. cbn. eexists. reflexivity.
    + right; right; left. rewrite B. split; [exact A|]. cbn. eexists. split; [reflexivity|]. destruct t as [| | |? ? []]; cbn; congruence.
    + right; right; right. exact V.
  - destruct (s_m s); try exact V; destruct (_ <? _); [destruct (s_cancel s)|]; apply K; reflexivity.
  - destruct (s_m s); try exact V; destruct d; apply K; reflexivity.
  - destruct (s_m s); try exact V; apply K; reflexivity.
  - destruct (mem c (s_list s)); [apply K; reflexivity|exact V].
  - destruct (mem c (s_left s)); [apply K; reflexivity|exact V].
Qed.
Lemma shape_reach conf s : reachable conf s -> shape s.
Proof.
  intros (d & es & ->). assert (V : shape (start d)) by (left; destruct d; split; reflexivity).
  revert V. generalize (start d). induction es as [|e es IH]; intros s V; [exact V|]. cbn. apply IH, shape_step, V.
Qed.

(** If the ticker's hook comes first and its signal finds the maintenance goroutine neither
    connecting nor with a round ahead of it, then no connection is opened any more and, once
    the hooks have returned, no session's connection is open: all that can be left is what
    refused logins left behind. *)
Theorem C90_all_closed_partial : forall conf s b, reachable conf s -> s_todo s = [TCancel; TClose] -> quiet s ->
  let s1 := run conf s (EHook :: b) in
  s_next s1 = s_next s /\ incl (s_open s1) (s_open s)
  /\ (hooks_done s1 -> forall c, In c (s_open s1) -> In c (s_left s)).
Proof.
  intros conf s b R T [P M] s1. pose proof (shape_reach conf s R) as SH. pose proof (inv_reach conf s R) as V.
  assert (SB : s_begun s = true /\ s_stopped s = true).
  { unfold shape in SH. rewrite T in SH. destruct SH as [[_ X]|[[_ (r & X)]|[[_ (t & X & _)]|X]]]; try discriminate X. exact X. }
  assert (CA : calm (s_list s) (s_next s) (step conf s EHook)).
  { cbn [step]. unfold hook. rewrite T. constructor; cbn; try tauto; try reflexivity. left. reflexivity. }
  destruct (calm_run conf _ _ b _ CA) as [[A B C D E F G] I1]. unfold s1. cbn [run fold_left].
  fold (run conf (step conf s EHook) b) in *.
  assert (O : s_open (step conf s EHook) = s_open s) by (cbn [step]; unfold hook; rewrite T; reflexivity).
  rewrite O in I1. split; [exact B|]. split; [exact I1|]. intros [_ HD] c K.
  destruct G as [G|[(i & G & _)|[_ G]]]; [congruence|congruence|].
  destruct (i_acc _ _ V c (I1 c K)) as [X|X]; [|exact X]. exfalso. exact (G c X K).
Qed.

(** Full claim refuted, whichever hook comes first and whatever number of connections is
    configured: after the hooks have returned the client connects anew, up to that number. *)
Lemma refill conf n : forall l o nx f p st bg,
  zlen l + Z.of_nat n <= max_of conf ->
  run conf (St l o [] f nx p st false MTop bg []) (concat (repeat [ETop; EDial DMade; EWake] n))
  = St (l ++ seq nx n) (rev (seq nx n) ++ o) [] f (nx + n) p st false MTop bg [].
Proof.
  induction n as [|n IH]; intros l o nx f p st bg H; [cbn; rewrite app_nil_r, Nat.add_0_r; reflexivity|].
  unfold run in *. cbn [repeat concat app fold_left step s_m s_list].
  assert (X : (zlen l <? max_of conf) = true) by (apply Z.ltb_lt; lia). rewrite X.
  cbn [step s_cancel with_m s_m s_list s_open s_half s_left s_next s_pend s_stopped s_begun s_todo].
  unfold with_m; cbn [s_list s_open s_half s_left s_next s_pend s_stopped s_cancel s_begun s_todo]. rewrite IH by (unfold zlen in *; rewrite app_length; cbn [length]; lia).
  cbn [seq rev]. rewrite <- !app_assoc. cbn [app]. replace (S nx + n)%nat with (nx + S n)%nat by lia. reflexivity.
Qed.

Lemma run_app conf s a b : run conf s (a ++ b) = run conf (run conf s a) b.
Proof. unfold run. apply fold_left_app. Qed.

Theorem C90_refuted : forall conf m stop_first, configured conf m -> exists a b,
  In (EBegin stop_first) a
  /\ hooks_done (run conf (start DMade) a) /\ s_open (run conf (start DMade) a) = []
  /\ zlen (s_open (run conf (start DMade) (a ++ b))) = m
  /\ forall c, In c (s_list (run conf (start DMade) (a ++ b))) <-> In c (s_open (run conf (start DMade) (a ++ b))).
Proof.
  intros conf m sf M. apply configured_of in M. pose proof (max_pos conf) as MP.
  assert (X0 : (zlen (@nil nat) <? max_of conf) = true) by (apply Z.ltb_lt; change (zlen (@nil nat)) with 0; lia).
  set (b := concat (repeat [ETop; EDial DMade; EWake] (Z.to_nat m))).
  assert (FIN : forall st bg p, let s := run conf (St [] [] [] [] 1 p st false MTop bg []) b in
     zlen (s_open s) = m /\ forall c, In c (s_list s) <-> In c (s_open s)).
  { intros st bg p s. unfold s, b. rewrite refill by (change (zlen (@nil nat)) with 0; lia). cbn [s_open s_list].
    rewrite app_nil_r. cbn [app]. split; [unfold zlen; rewrite rev_length, seq_length; lia|]. intros c. rewrite <- in_rev. reflexivity. }
  destruct sf.
  - set (a := [ELost 0; ETick; ETake; EPrune; ETop; EDial DFail; ETick; EBegin true; EHook; EHook; EHook; EHook; EWake; ETop; ETake; EPrune]%nat).
    assert (RA : run conf (start DMade) a = St [] [] [] [] 1 false true false MTop true []).
    { clear. destruct conf; vm_compute; reflexivity. }
    exists a, b. split; [unfold a; cbn; tauto|]. rewrite run_app, RA. split; [split; reflexivity|]. split; [reflexivity|]. exact (FIN true true false).
  - set (a2 := [EBegin false; EHook; EHook; EHook; ETick; ETake; EPrune; ETop; EDial DFail; ETick; EHook; EHook; EWake; ETop; ETake; EPrune]).
    assert (RA : run conf (start DMade) a2 = St [] [] [] [] 1 false true false MTop true []).
    { clear. destruct conf; vm_compute; reflexivity. }
    exists a2, b. split; [unfold a2; cbn; tauto|]. rewrite run_app, RA. split; [split; reflexivity|]. split; [reflexivity|]. exact (FIN true true false).
Qed.

(** Also if the ticker's hook comes first and no tick is waiting: a connection being made when
    the hooks run is added to the list after the closing hook went over it. *)
Theorem C90_refuted_connecting : forall conf s, reachable conf s -> s_m s = MDial -> s_todo s = [TClose] ->
  exists n, let s1 := run conf s (repeat EHook n ++ [EDial DMade]) in
    hooks_done s1 /\ In (s_next s) (s_open s1) /\ In (s_next s) (s_list s1)
    /\ forall c, In c (s_open s1) -> c = s_next s \/ In c (s_left s).
Proof.
  intros conf s R M T. pose proof (inv_reach conf s R) as V. pose proof (shape_reach conf s R) as SH.
  assert (BG : s_begun s = true).
  { unfold shape in SH. rewrite T in SH. destruct SH as [[_ X]|[[X _]|[[X _]|[X _]]]]; [discriminate X|exact X|exact X|exact X]. }
  assert (G : forall k i s0, s_list s0 = s_list s -> s_m s0 = MDial -> s_begun s0 = true -> s_next s0 = s_next s -> s_left s0 = s_left s ->
     s_todo s0 = [TLoop i (length (s_list s)) None] -> (length (s_list s) = i + k)%nat -> (forall j c, (j < i)%nat -> nth_error (s_list s) j = Some c -> ~ In c (s_open s0)) ->
     incl (s_open s0) (s_open s) ->
     let s1 := run conf s0 (repeat EHook (S k)) in s_list s1 = s_list s /\ s_m s1 = MDial /\ s_begun s1 = true /\ s_next s1 = s_next s /\ s_left s1 = s_left s /\ s_todo s1 = []
       /\ incl (s_open s1) (s_open s) /\ forall c, In c (s_list s) -> ~ In c (s_open s1)).
  { clear M T. induction k as [|k IH]; intros i s0 A B C D E F K Cl O.
    - cbn [repeat run fold_left step]. unfold hook. rewrite F.
      assert (X : (i <? length (s_list s))%nat = false) by (apply Nat.ltb_ge; lia). rewrite X. cbn.
      repeat match goal with |- _ /\ _ => split end; auto. intros c K1 K2. apply In_nth_error in K1. destruct K1 as [j K1].
      apply (Cl j c); auto. assert (j < length (s_list s))%nat by (apply nth_error_Some; congruence). lia.
    - change (repeat EHook (S (S k))) with (EHook :: repeat EHook (S k)).
      change (run conf s0 (EHook :: repeat EHook (S k))) with (run conf (step conf s0 EHook) (repeat EHook (S k))).
      assert (X : (i <? length (s_list s))%nat = true) by (apply Nat.ltb_lt; lia).
      destruct (nth_error (s_list s) i) as [c|] eqn:N; [|apply nth_error_None in N; lia].
      assert (ST : step conf s0 EHook = with_todo (with_open s0 (del c (s_open s0))) [TLoop (S i) (length (s_list s)) None]).
      { cbn [step]. unfold hook. rewrite F, X, A, N. reflexivity. }
      rewrite ST. apply (IH (S i)); cbn; auto; [lia| |].
      + intros j c0 K1 K2 K3. apply del_In in K3. destruct K3 as [K3 K4]. destruct (Nat.eq_dec j i) as [->|NE]; [congruence|]. exact (Cl j c0 ltac:(lia) K2 K3).
      + intros c0 K1. apply del_In in K1. apply O. tauto. }
  exists (S (S (length (s_list s)))). unfold run in *. rewrite fold_left_app.
  change (repeat EHook (S (S (length (s_list s))))) with (EHook :: repeat EHook (S (length (s_list s)))).
  cbn [fold_left]. set (s0 := step conf s EHook).
  assert (E0 : s0 = with_todo s [TLoop 0 (length (s_list s)) None]) by (unfold s0; cbn [step]; unfold hook; rewrite T; reflexivity).
  assert (H1 : s_list s0 = s_list s) by (rewrite E0; reflexivity). assert (H2 : s_m s0 = MDial) by (rewrite E0; exact M).
  assert (H3 : s_begun s0 = true) by (rewrite E0; exact BG). assert (H4 : s_next s0 = s_next s) by (rewrite E0; reflexivity).
  assert (H5 : s_left s0 = s_left s) by (rewrite E0; reflexivity). assert (H6 : s_todo s0 = [TLoop 0 (length (s_list s)) None]) by (rewrite E0; reflexivity).
  assert (H7 : incl (s_open s0) (s_open s)) by (rewrite E0; intros x K; exact K).
  destruct (G (length (s_list s)) 0%nat s0 H1 H2 H3 H4 H5 H6 eq_refl ltac:(intros j c K; lia) H7) as (A & B & C & D & E & F & O & Cl).
  change (fold_left (step conf) (EHook :: repeat EHook (length (s_list s))) s0) with (fold_left (step conf) (repeat EHook (S (length (s_list s)))) s0).
  cbn [fold_left repeat] in *.
  set (s2 := fold_left (step conf) (repeat EHook (length (s_list s))) (step conf s0 EHook)) in *.
  cbn [step]. rewrite B, D, A. cbn.
  split; [split; [exact C|exact F]|]. split; [left; reflexivity|]. split; [apply in_or_app; right; left; reflexivity|].
  intros c [K|K]; [left; congruence|]. destruct (i_acc _ _ V c (O c K)) as [X|X]; [exfalso; exact (Cl c X K)|right; exact X].
Qed.

(** Nor does the closing hook close every session of the list while lruSort sorts it: the
    session behind one just closed moves to its place and is passed over. *)
Theorem C90_refuted_sorting : forall conf s a b r, reachable conf s -> s_list s = a :: b :: r -> In b (s_open s) ->
  s_m s = MSort -> s_todo s = [TClose] ->
  exists es, let s1 := run conf s es in hooks_done s1 /\ In b (s_open s1) /\ In b (s_list s1)
    /\ forall e, In e es -> e = EHook \/ e = ESwap 0 1.
Proof.
  intros conf s a b r R L O M T. pose proof (inv_reach conf s R) as V. pose proof (shape_reach conf s R) as SH.
  assert (BG : s_begun s = true).
  { unfold shape in SH. rewrite T in SH. destruct SH as [[_ X]|[[X _]|[[X _]|[X _]]]]; [discriminate X|exact X|exact X|exact X]. }
  pose proof (i_nl _ _ V) as N. rewrite L in N. inversion N as [|? ? N1 N2]; subst. inversion N2 as [|? ? N3 N4]; subst.
  assert (AB : a <> b) by (intros ->; apply N1; left; reflexivity).
  assert (G : forall k i s0, s_list s0 = b :: a :: r -> s_begun s0 = true -> s_todo s0 = [TLoop (S i) (length (b :: a :: r)) None] ->
     (length (a :: r) = i + k)%nat -> In b (s_open s0) ->
     let s1 := run conf s0 (repeat EHook (S k)) in hooks_done s1 /\ In b (s_open s1) /\ In b (s_list s1)).
  { clear - AB N3. induction k as [|k IH]; intros i s0 A B F K O.
    - cbn [repeat run fold_left step]. unfold hook. rewrite F.
      assert (X : (S i <? length (b :: a :: r))%nat = false) by (apply Nat.ltb_ge; cbn [length] in *; lia). rewrite X. cbn. rewrite A.
      split; [split; [exact B|reflexivity]|]. split; [exact O|left; reflexivity].
    - change (run conf s0 (repeat EHook (S (S k)))) with (run conf (step conf s0 EHook) (repeat EHook (S k))).
      assert (X : (S i <? length (b :: a :: r))%nat = true) by (apply Nat.ltb_lt; cbn [length] in *; lia).
      destruct (nth_error (b :: a :: r) (S i)) as [c|] eqn:Nn; [|apply nth_error_None in Nn; cbn [length] in *; lia].
      assert (CB : c <> b).
      { cbn in Nn. apply nth_error_In in Nn. destruct Nn as [Q|Q]; [congruence|intros ->; contradiction]. }
      assert (ST : step conf s0 EHook = with_todo (with_open s0 (del c (s_open s0))) [TLoop (S (S i)) (length (b :: a :: r)) None]).
      { cbn [step]. unfold hook. rewrite F, X, A, Nn. reflexivity. }
      rewrite ST. apply (IH (S i)); cbn; auto; [cbn [length] in K; lia|]. apply del_In. auto. }
  set (s3 := St (b :: a :: r) (del a (s_open s)) (s_half s) (s_left s) (s_next s) (s_pend s) (s_stopped s) (s_cancel s) MSort true [TLoop 1 (length (b :: a :: r)) None]).
  assert (E3 : run conf s [EHook; EHook; ESwap 0 1] = s3).
  { assert (E1 : step conf s EHook = with_todo s [TLoop 0 (length (s_list s)) None]) by (cbn [step]; unfold hook; rewrite T; reflexivity).
    unfold run. cbn [fold_left]. rewrite E1. cbn [step]. unfold hook. cbn [s_todo with_todo s_list]. rewrite L. cbn [length Nat.ltb Nat.leb nth_error with_todo with_open s_m s_list].
    cbn. rewrite M, L, BG. reflexivity. }
  assert (O3 : In b (s_open s3)) by (apply del_In; auto).
  pose proof (G (length (a :: r)) 0%nat s3 eq_refl eq_refl eq_refl eq_refl O3) as (A & B & C).
  exists ([EHook; EHook; ESwap 0 1] ++ repeat EHook (S (length (a :: r)))). rewrite run_app, E3.
  split; [exact A|]. split; [exact B|]. split; [exact C|].
  intros e H. apply in_app_or in H. destruct H as [H|H]; [cbn in H; intuition congruence|]. left. apply repeat_spec in H. exact H.
Qed.

(** If the list is not being sorted meanwhile, the closing hook closes every session that was in the
    list when it began, whatever else happens: sessions lost, the list pruned and replaced, new
    connections made, ticks; in whichever order the hooks come. *)
Record looped (L : list nat) (n0 : nat) (r : list task) (s : st) : Prop := {
  lp_lt : forall c, In c L -> (c < n0)%nat;
  lp_next : (n0 <= s_next s)%nat;
  lp_todo : (exists i old, s_todo s = TLoop i (length L) old :: r /\ firstn (length L) (match old with None => s_list s | Some l => l end) = L
               /\ forall j c, (j < i)%nat -> nth_error L j = Some c -> ~ In c (s_open s))
            \/ (length (s_todo s) <= length r)%nat /\ (forall c, In c L -> ~ In c (s_open s)) }.
Lemma not_loops l r : (forall t, In t r -> match t with TLoop _ _ _ => False | _ => True end) -> map (keep_old l) r = r.
Proof. induction r as [|t r IH]; intros H; [reflexivity|]. cbn [map]. rewrite IH by (intros; apply H; right; assumption). pose proof (H t (or_introl eq_refl)) as X. destruct t; [reflexivity|reflexivity|reflexivity|destruct X]. Qed.
Lemma looped_step conf L n0 r s e : (forall t, In t r -> match t with TLoop _ _ _ => False | _ => True end) -> (forall i j, e <> ESwap i j) -> s_begun s = true -> looped L n0 r s -> looped L n0 r (step conf s e).
Proof.
  intros NL NS BG [A B C].
  assert (KEEP : forall s1, (s_next s <= s_next s1)%nat -> s_todo s1 = s_todo s -> (forall n, (n <= length (s_list s))%nat -> firstn n (s_list s1) = firstn n (s_list s)) ->
     (forall c, (c < s_next s)%nat -> In c (s_open s1) -> In c (s_open s)) -> looped L n0 r s1).
  { intros s1 N T F O. constructor; [exact A|lia|]. rewrite T. destruct C as [(i & old & T1 & F1 & C1)|[T1 C1]].
    - left. exists i, old. split; [exact T1|]. split.
      + destruct old; [exact F1|]. rewrite F; [exact F1|]. pose proof (f_equal (@length _) F1) as X. rewrite firstn_length in X. lia.
      + intros j c J N1 I. apply (C1 j c J N1). apply O; [|exact I]. apply nth_error_In in N1. apply A in N1. lia.
    - right. split; [exact T1|]. intros c I K. apply (C1 c I). apply O; [|exact K]. apply A in I. lia. }
  assert (SELF : looped L n0 r s) by (constructor; assumption).
  assert (APP : forall n (l x : list nat), (n <= length l)%nat -> firstn n (l ++ x) = firstn n l).
  { intros n l x H. rewrite firstn_app. replace (n - length l)%nat with 0%nat by lia. rewrite firstn_O, app_nil_r. reflexivity. }
  destruct e as [f| | | |i j| | |d| |c|c]; cbn [step].
  - rewrite BG. exact SELF.
  - unfold hook. destruct C as [(i & old & T1 & F1 & C1)|[T1 C1]].
    + rewrite T1. destruct (i <? length L)%nat eqn:E.
      * apply Nat.ltb_lt in E. set (l := match old with None => s_list s | Some l => l end) in *.
        assert (NI : nth_error l i = nth_error L i).
        { transitivity (nth_error (firstn (length L) l) i); [|rewrite F1; reflexivity]. clearbody l. clear - E. revert l E. generalize (length L) as n. induction i as [|i IH]; intros [|n] [|x l] E; try lia; try reflexivity. cbn. apply IH. lia. }
        destruct (nth_error L i) as [c|] eqn:NC; [|apply nth_error_None in NC; lia]. rewrite NI. constructor; [exact A|exact B|]. left. exists (S i), old. split; [reflexivity|]. split; [exact F1|].
        cbn [with_todo with_open s_open]. intros j d J ND I. apply del_In in I as [I N]. destruct (Nat.eq_dec j i) as [->|NE]; [congruence|]. apply (C1 j d); [lia|exact ND|exact I].
      * apply Nat.ltb_ge in E. constructor; [exact A|exact B|]. right. cbn [with_todo s_todo s_open]. split; [lia|]. intros c I K. apply In_nth_error in I as [j J].
        apply (C1 j c); [|exact J|exact K]. assert (j < length L)%nat by (apply nth_error_Some; congruence). lia.
    + assert (SHORT : forall s1, s_next s1 = s_next s -> (length (s_todo s1) <= length (s_todo s))%nat -> incl (s_open s1) (s_open s) -> looped L n0 r s1).
      { intros s1 N T O. constructor; [exact A|lia|]. right. split; [lia|]. intros c I K. exact (C1 c I (O c K)). }
      destruct (s_todo s) as [|t r'] eqn:T; [exact SELF|]. destruct t as [| | |i n old]; try (apply SHORT; cbn; [reflexivity|lia|intros x X; exact X]).
      destruct (i <? n)%nat; [|apply SHORT; cbn; [reflexivity|lia|intros x X; exact X]]. cbv zeta. destruct (nth_error _ i); apply SHORT; cbn; try reflexivity; try lia; intros x X; [apply del_In in X; tauto|exact X].
  - destruct (s_stopped s); [exact SELF|]. apply KEEP; cbn; auto.
  - destruct (s_m s); try exact SELF. destruct (s_pend s); [|exact SELF]. apply KEEP; cbn; auto.
  - destruct (NS i j eq_refl).
  - destruct (s_m s); try exact SELF. constructor; cbn [s_next s_todo s_open s_list]; [exact A|exact B|]. destruct C as [(i & old & T1 & F1 & C1)|[T1 C1]].
    + left. rewrite T1. cbn [map keep_old]. rewrite (not_loops _ r NL). exists i, (Some (match old with None => s_list s | Some l => l end)). split; [destruct old; reflexivity|]. split; [exact F1|].
      intros j c J N I. apply filter_In in I as [I _]. exact (C1 j c J N I).
    + right. rewrite map_length. split; [exact T1|]. intros c I K. apply filter_In in K as [K _]. exact (C1 c I K).
  - destruct (s_m s); try exact SELF. destruct (_ <? _); [|apply KEEP; cbn; auto]. destruct (s_cancel s); apply KEEP; cbn; auto.
  - destruct (s_m s); try exact SELF. destruct d; apply KEEP; cbn; auto; intros c H [X|X]; auto; lia.
  - destruct (s_m s); try exact SELF. apply KEEP; cbn; auto.
  - destruct (mem c (s_list s)); [|exact SELF]. apply KEEP; cbn; auto. intros x _ X. apply del_In in X. tauto.
  - destruct (mem c (s_left s)); [|exact SELF]. apply KEEP; cbn; auto. intros x _ X. apply del_In in X. tauto.
Qed.
Definition heads (s : st) : Prop := (forall t, In t (tl (s_todo s)) -> match t with TLoop _ _ _ => False | _ => True end) /\ (s_begun s = false -> s_todo s = []).
Lemma begun_step conf s e : s_begun s = true -> s_begun (step conf s e) = true.
Proof.
  intros B. destruct e as [f| | | |i j| | |d| |c|c]; cbn [step].
  1: rewrite B; exact B.
  1: unfold hook; destruct (s_todo s) as [|[| | |i n old] r]; try exact B; destruct (i <? n)%nat; [|exact B]; cbv zeta; destruct (nth_error _ i); exact B.
  all: repeat match goal with |- context [match ?x with _ => _ end] => destruct x end; exact B.
Qed.
Lemma heads_step conf s e : heads s -> heads (step conf s e).
Proof.
  intros [H B]. assert (K : forall s', s_begun s' = s_begun s -> s_todo s' = s_todo s -> heads s') by (intros s' X Y; unfold heads; rewrite X, Y; auto).
  assert (TT : forall t r, s_todo s = t :: r -> forall x, In x (tl r) -> match x with TLoop _ _ _ => False | _ => True end).
  { intros t r E x X. rewrite E in H. apply H. cbn. destruct r; [destruct X|right; exact X]. }
  assert (BT : forall t r, s_todo s = t :: r -> s_begun s = false -> False) by (intros t r E X; apply B in X; congruence).
  destruct e as [f| | | |i j| | |d| |c|c]; cbn [step].
  - destruct (s_begun s) eqn:E; [split; [exact H|intros X; congruence]|]. split; cbn; [|discriminate]. destruct f; cbn; intros t [<-|[<-|[]]]; exact I.
  - unfold hook. destruct (s_todo s) as [|t r] eqn:E; [apply K; congruence|]. destruct t as [| | |i n old]; try (split; cbn; [exact (TT _ _ eq_refl)|intros X; destruct (BT _ _ eq_refl X)]).
    + split; cbn; [exact H|intros X; destruct (BT _ _ eq_refl X)].
    + destruct (i <? n)%nat; [|split; cbn; [exact (TT _ _ eq_refl)|intros X; destruct (BT _ _ eq_refl X)]].
      cbv zeta. destruct (nth_error _ i); (split; cbn; [exact H|intros X; destruct (BT _ _ eq_refl X)]).
  - destruct (s_stopped s); apply K; reflexivity.
  - destruct (s_m s); try (apply K; reflexivity). destruct (s_pend s); apply K; reflexivity.
  - destruct (s_m s); apply K; reflexivity.
  - destruct (s_m s); try (apply K; reflexivity). split; cbn; [|intros X; rewrite (B X); reflexivity].
    destruct (s_todo s) as [|t r]; [intros x []|]. cbn [map tl]. intros x X. apply in_map_iff in X as (y & <- & Y). apply H in Y. destruct y; [exact I|exact I|exact I|destruct Y].
  - destruct (s_m s); try (apply K; reflexivity). destruct (_ <? _); [destruct (s_cancel s)|]; apply K; reflexivity.
  - destruct (s_m s); try (apply K; reflexivity). destruct d; apply K; reflexivity.
  - destruct (s_m s); apply K; reflexivity.
  - destruct (mem c _); apply K; reflexivity.
  - destruct (mem c _); apply K; reflexivity.
Qed.
Lemma heads_reach conf s : reachable conf s -> heads s.
Proof.
  intros (d & es & ->). assert (V : heads (start d)) by (destruct d; split; cbn; auto; intros t []).
  revert V. generalize (start d). induction es as [|e es IH]; intros s V; [exact V|]. cbn. apply IH, heads_step, V.
Qed.
Theorem C90_unsorted_partial : forall conf s r b, reachable conf s -> s_todo s = TClose :: r -> (forall i j, ~ In (ESwap i j) b) ->
  let s1 := run conf s (EHook :: b) in (length (s_todo s1) <= length r)%nat -> forall c, In c (s_list s) -> ~ In c (s_open s1).
Proof.
  intros conf s r b R T NS s1 D. pose proof (inv_reach conf s R) as V. pose proof (shape_reach conf s R) as SH.
  assert (NL : s_begun s = true /\ forall t, In t r -> match t with TLoop _ _ _ => False | _ => True end).
  { destruct (heads_reach conf s R) as [X Y]. rewrite T in X, Y. split; [destruct (s_begun s); [reflexivity|discriminate (Y eq_refl)]|exact X]. }
  destruct NL as [BG NL].
  assert (LP : looped (s_list s) (s_next s) r (step conf s EHook)).
  { cbn [step]. unfold hook. rewrite T. constructor; cbn [with_todo s_next s_todo s_list s_open]; [apply V|lia|]. left. exists 0%nat, None. split; [reflexivity|]. split; [apply firstn_all|]. intros j c J. lia. }
  assert (BG1 : s_begun (step conf s EHook) = true) by (cbn [step]; unfold hook; rewrite T; exact BG).
  unfold s1 in *. change (run conf s (EHook :: b)) with (run conf (step conf s EHook) b) in *. clear s1 T V BG R SH.
  assert (G : looped (s_list s) (s_next s) r (run conf (step conf s EHook) b)).
  { revert LP BG1. generalize (step conf s EHook) as s0. clear D. induction b as [|e b IH]; intros s0 LP BG1; [exact LP|]. change (run conf s0 (e :: b)) with (run conf (step conf s0 e) b). apply IH.
    - intros i j I. exact (NS i j (or_intror I)).
    - apply looped_step; auto. intros i j ->. exact (NS i j (or_introl eq_refl)).
    - apply begun_step, BG1. }
  destruct G as [_ _ [(i & old & T1 & _)|[_ C]]]; [rewrite T1 in D; cbn [length] in D; lia|exact C].
Qed.

(** Two sessions; when the closing loop has closed the first, the list is pruned to the second and a
    connection is made; the loop still closes the second (the new one stays: C90_refuted). *)
Example C90_unsorted_case :
  let s := run 2 (start DMade) [ETick; ETake; EPrune; ETop; EDial DMade; EWake; ETop; ETick; ETake; EBegin false] in
  let b := [EHook; EPrune; ETop; EDial DMade; EHook; EHook]%nat in
  s_todo s = [TClose; TStop; TCancel] /\ s_list s = [0; 1]%nat /\ s_open s = [1; 0]%nat
  /\ s_list (run 2 s (EHook :: b)) = [1; 2]%nat /\ length (s_todo (run 2 s (EHook :: b))) = 2%nat /\ s_open (run 2 s (EHook :: b)) = [2]%nat.
Proof. vm_compute. repeat split; reflexivity. Qed.
(** A session whose login got no full answer is not kept: the next time the list is pruned it is
    closed and dropped. *)
Theorem C91_half_dropped : forall conf s b, s_m s = MDial -> let c := s_next s in let s1 := run conf s (EDial DHalf :: b) in
  s_m s1 = MSort -> In c (s_list s1) -> ~ In c (s_list (step conf s1 EPrune)) /\ ~ In c (s_open (step conf s1 EPrune)).
Proof.
  intros conf s b M c s1 M1 L. assert (H : In c (s_half s1)).
  { unfold s1. change (run conf s (EDial DHalf :: b)) with (run conf (step conf s (EDial DHalf)) b).
    assert (H0 : In c (s_half (step conf s (EDial DHalf)))) by (cbn [step]; rewrite M; left; reflexivity). revert H0. generalize (step conf s (EDial DHalf)) as s0. clear.
    induction b as [|e b IH]; intros s0 H; [exact H|]. change (run conf s0 (e :: b)) with (run conf (step conf s0 e) b). apply IH.
    destruct e as [f| | | |i j| | |d| |x|x]; cbn [step]; unfold hook; repeat match goal with |- context [match ?y with _ => _ end] => destruct y; cbn [s_half with_todo with_open with_m] end; cbn [s_half]; auto; right; exact H. }
  assert (NH : healthy s1 c = false) by (unfold healthy; apply mem_In in H; rewrite H; apply andb_false_r).
  cbn [step]. rewrite M1. cbn [s_list s_open]. split; intros X; apply filter_In in X as [X Y]; [congruence|].
  rewrite negb_true_iff in Y. assert (Z : mem c (filter (fun x => negb (healthy s1 x)) (s_list s1)) = true) by (apply mem_In, filter_In; rewrite NH; auto). congruence.
Qed.
Example C91_half_case : let s := run 2 (start DMade) [ETick; ETake; EPrune; ETop] in s_m s = MDial
  /\ let s1 := run 2 s (EDial DHalf :: [EWake; ETop; ETick; ETake]) in s_m s1 = MSort /\ s_list s1 = [0; 1]%nat /\ s_list (step 2 s1 EPrune) = [0]%nat.
Proof. vm_compute. repeat split; reflexivity. Qed.
(** Non-vacuity: two sessions, one lost, its replacement not reachable; the client is stopped
    while the maintenance goroutine sleeps.  Both hooks run; nothing is left open. *)
Example C90_case :
  let a := [ETick; ETake; ESwap 0 0; EPrune; ETop; EDial DMade; EWake; ETop; ELost 0; ETick; ETake; EPrune; ETop; EDial DFail; EBegin true; EHook]%nat in
  let s := run 2 (start DMade) a in
  s_todo s = [TCancel; TClose] /\ quiet s /\ s_open s = [1]%nat /\ s_list s = [1]%nat
  /\ let b := [EWake; EHook; ETop; EHook; ETick; ETake; EHook]%nat in
     hooks_done (run 2 s (EHook :: b)) /\ s_open (run 2 s (EHook :: b)) = [].
Proof. vm_compute. repeat split; auto. Qed.
(** Non-vacuity of the other two: the states they speak of are reached. *)
Example C90_states :
  (let s := run 2 (start DMade) [ETick; ETake; EPrune; ETop; EBegin true; EHook; EHook] in s_m s = MDial /\ s_todo s = [TClose] /\ s_list s = [0]%nat)
  /\ (let s := run 2 (start DMade) [ETick; ETake; EPrune; ETop; EDial DMade; EWake; ETop; ETick; ETake; EBegin true; EHook; EHook] in
      s_m s = MSort /\ s_todo s = [TClose] /\ s_list s = [0; 1]%nat /\ s_open s = [1; 0]%nat).
Proof. vm_compute. repeat split; reflexivity. Qed.

Print Assumptions C91_bound_partial.
Print Assumptions C91_refuted.
Print Assumptions C91_half_dropped.
Print Assumptions C90_unsorted_partial.
Print Assumptions C90_all_closed_partial.
Print Assumptions C90_refuted.
Print Assumptions C90_refuted_connecting.
Print Assumptions C90_refuted_sorting.
