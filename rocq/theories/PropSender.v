(** * PropSender: C81 (the command line client sends to every listed number).
    Model: MainModel.v. *)
From Coq Require Import Sorting.Permutation.
From Verif Require Import Base MainModel.

(** ** Specification *)
(** The numbers given on the command line: the text is the numbers with commas between them. *)
Fixpoint joined (l : list bytes) : bytes :=
  match l with [] => [] | [w] => w | w :: r => w ++ [44] ++ joined r end.
(** A run is complete: the goroutine has ended and every job has run. *)
Definition complete (s : sender) : Prop := sd_over s = true /\ sd_jobs s = [].
(** The pool took every job. *)
Definition takes_all (es : list sev) : Prop := Forall (fun e => match e with EvLoop ok => ok = true | EvJob _ => True end) es.
Definition numbers (s : sender) : list bytes := map snd (sd_sent s).
Definition how_often (p : bytes) (l : list bytes) : nat := count_occ (list_eq_dec Z.eq_dec) l p.
(** What was ordered: every number once per iteration. *)
Definition ordered (arr : list bytes) (n : nat) : list bytes := concat (repeat arr n).

Theorem C81_listed : forall s, joined (split_comma s) = s /\ split_comma s <> [] /\ Forall (fun w => ~ In 44 w) (split_comma s).
Proof.
  induction s as [|c r (A & B & C)]; [repeat split; [discriminate|repeat constructor; auto]|]. cbn [split_comma].
  destruct (Z.eqb_spec c 44) as [->|E].
  - split; [|split; [discriminate|constructor; auto]]. destruct (split_comma r) as [|w ws]; [congruence|]. change (joined ([] :: w :: ws)) with (44 :: joined (w :: ws)). rewrite A. reflexivity.
  - destruct (split_comma r) as [|w ws]; [congruence|]. split; [|split; [discriminate|]].
    + destruct ws as [|w2 ws]; cbn [joined app] in *; rewrite A; reflexivity.
    + inversion C as [|? ? N F]; subst. constructor; auto. intros [H|H]; auto.
Qed.

(** ** Invariant *)
Definition tags (arr : list bytes) (m at_ : nat) : list (nat * nat) :=
  list_prod (seq 0 (m - 1)) (seq 0 (length arr)) ++ map (pair (m - 1)%nat) (seq 0 at_).
(** [v] is a number of the list at position k or later. *)
Definition at_or_after (arr : list bytes) (v : bytes) (k : nat) : Prop := exists j, (k <= j)%nat /\ nth_error arr j = Some v.
Record going (arr : list bytes) (n : Z) (s : sender) : Prop := Going {
  g_vars : sd_vars s <> [];
  g_rest : sd_rest s = skipn (sd_at s) arr;
  g_at : (sd_at s <= length arr)%nat;
  g_left : 0 <= sd_left s;
  g_sum : sd_left s + Z.of_nat (length (sd_vars s)) = n;
  g_over : sd_over s = true -> sd_left s = 0 /\ sd_at s = length arr;
  g_val : forall it v k, nth_error (sd_vars s) it = Some v -> (k < length arr)%nat ->
            ((S it < length (sd_vars s))%nat \/ (k < sd_at s)%nat) -> at_or_after arr v k;
  g_tags : Permutation (sd_jobs s ++ map fst (sd_sent s)) (tags arr (length (sd_vars s)) (sd_at s));
  g_sent : Forall (fun '(_, k, p) => at_or_after arr p k) (sd_sent s) }.
Definition fresh (n : Z) (s : sender) : Prop :=
  sd_vars s = [] /\ sd_rest s = [] /\ sd_at s = 0%nat /\ sd_jobs s = [] /\ sd_sent s = [] /\ sd_left s = n /\ (sd_over s = true -> n <= 0).
Definition inv (arr : list bytes) (n : Z) (s : sender) : Prop := fresh n s \/ going arr n s.

Lemma list_prod_app {A B} (l1 l2 : list A) (l : list B) : list_prod (l1 ++ l2) l = list_prod l1 l ++ list_prod l2 l.
Proof. induction l1 as [|x l1 IH]; cbn; [reflexivity|]. rewrite IH, app_assoc. reflexivity. Qed.
Lemma tags_next arr m : (0 < m)%nat -> tags arr (S m) 0 = tags arr m (length arr).
Proof.
  intros H. unfold tags. cbn [seq map]. rewrite app_nil_r. replace (S m - 1)%nat with (S (m - 1)) by lia.
  rewrite seq_S, list_prod_app. f_equal. cbn [list_prod]. rewrite app_nil_r. reflexivity.
Qed.
Lemma tags_more arr m a : tags arr m (S a) = tags arr m a ++ [((m - 1)%nat, a)].
Proof. unfold tags. rewrite seq_S, map_app, app_assoc. reflexivity. Qed.
Lemma skipn_cons {A} (l : list A) k p r : skipn k l = p :: r -> nth_error l k = Some p /\ r = skipn (S k) l /\ (k < length l)%nat.
Proof.
  revert k. induction l as [|x l IH]; intros k; [destruct k; discriminate|].
  destruct k; cbn [skipn]; intros E; [injection E as <- <-; cbn; repeat split; lia|]. apply IH in E. cbn [length nth_error]. intuition lia.
Qed.
Lemma skipn_none {A} (l : list A) k : skipn k l = [] -> (length l <= k)%nat.
Proof. revert k. induction l as [|x l IH]; intros k; [cbn; lia|]. destruct k; cbn [skipn]; [discriminate|]. intros E. apply IH in E. cbn. lia. Qed.
Lemma set_last_spec l v : l <> [] -> length (set_last l v) = length l /\
  (forall i, (S i < length l)%nat -> nth_error (set_last l v) i = nth_error l i) /\ nth_error (set_last l v) (length l - 1) = Some v.
Proof.
  intros H. destruct (exists_last H) as (r & x & ->). unfold set_last. rewrite removelast_last, !app_length. cbn [length].
  split; [reflexivity|]. split.
  - intros i Hi. rewrite !nth_error_app1 by lia. reflexivity.
  - rewrite nth_error_app2 by lia. replace (_ - _)%nat with 0%nat by lia. reflexivity.
Qed.
Lemma without_perm {A} (l : list A) n x : nth_error l n = Some x -> Permutation l (x :: without n l).
Proof.
  intros E. apply nth_error_split in E. destruct E as (a & b & -> & <-). unfold without.
  rewrite firstn_app, firstn_all, Nat.sub_diag, firstn_O, app_nil_r. rewrite skipn_app, skipn_all2 by lia.
  replace (S (length a) - length a)%nat with 1%nat by lia. cbn [skipn app]. symmetry. apply Permutation_middle.
Qed.
Lemma in_tags arr m a it k : In (it, k) (tags arr m a) -> (S it < m /\ k < length arr)%nat \/ (it = m - 1 /\ k < a)%nat.
Proof.
  unfold tags. rewrite in_app_iff, in_prod_iff, in_map_iff, !in_seq. intros [H|(x & E & H)]; [lia|].
  rewrite in_seq in H. injection E as <- <-. lia.
Qed.
Lemma step_inv arr n s e : inv arr n s -> (match e with EvLoop ok => ok = true | EvJob _ => True end) -> inv arr n (sender_step arr s e).
Proof.
  intros I T. destruct e as [ok|j].
  - subst ok. cbn [sender_step]. destruct (sd_over s) eqn:O; [exact I|]. destruct I as [F|G].
    + destruct F as (V & R & A & J & S1 & L & _). rewrite R. destruct (Z.ltb_spec 0 (sd_left s)).
      * right. rewrite V, J, S1. constructor; cbn [sd_vars sd_rest sd_at sd_left sd_over sd_jobs sd_sent app length map]; try discriminate; auto; try lia.
      * left. unfold fresh. cbn. rewrite V, J, S1. repeat split; auto. lia.
    + destruct G as [V R A L S1 _ W P Q]. pose proof (set_last_spec (sd_vars s)) as SL.
      assert (M : (0 < length (sd_vars s))%nat) by (destruct (sd_vars s); [congruence|cbn; lia]).
      destruct (sd_rest s) as [|p r] eqn:ER.
      * symmetry in R. pose proof (skipn_none _ _ R). assert (EA : sd_at s = length arr) by lia.
        destruct (Z.ltb_spec 0 (sd_left s)); right; constructor; cbn [sd_vars sd_rest sd_at sd_left sd_over sd_jobs sd_sent]; auto; try discriminate; try lia.
        -- destruct (sd_vars s); discriminate.
        -- rewrite app_length. cbn. lia.
        -- intros it v k E Hk [D|D]; [|lia]. rewrite app_length in D. cbn in D. rewrite nth_error_app1 in E by lia.
           apply (W it v k E Hk). rewrite EA. auto.
        -- rewrite app_length. cbn [length]. rewrite Nat.add_1_r, tags_next by auto. rewrite <- EA. exact P.
      * symmetry in R. destruct (skipn_cons _ _ _ _ R) as (E1 & E2 & E3). destruct (SL p V) as (S2 & S3 & S4).
        right; constructor; cbn [sd_vars sd_rest sd_at sd_left sd_over sd_jobs sd_sent]; auto; try discriminate; try lia.
        -- intros E. rewrite E in S2. cbn in S2. lia.
        -- intros it v k E Hk D. rewrite S2 in D. destruct (Nat.lt_ge_cases (S it) (length (sd_vars s))) as [B|B].
           ++ rewrite S3 in E by auto. apply (W it v k E Hk). auto.
           ++ assert (it = (length (sd_vars s) - 1)%nat) by (assert (it < length (set_last (sd_vars s) p))%nat by (apply nth_error_Some; congruence); lia). subst it. rewrite S4 in E. injection E as <-.
              exists (sd_at s). split; [lia|auto].
        -- rewrite S2, tags_more. rewrite <- app_assoc. cbn [app].
           rewrite <- Permutation_middle. rewrite Permutation_app_comm. cbn [app].
           rewrite (Permutation_app_comm (tags _ _ _)). cbn [app]. constructor. rewrite Permutation_app_comm. exact P.
  - cbn [sender_step]. destruct (nth_error (sd_jobs s) j) as [[it k]|] eqn:E; [|exact I]. destruct I as [F|G].
    + destruct F as (V & R & A & J & _). rewrite J in E. destruct j; discriminate.
    + destruct G as [V R A L S1 O W P Q]. pose proof (without_perm _ _ _ E) as WP.
      assert (B : In (it, k) (tags arr (length (sd_vars s)) (sd_at s))).
      { apply (Permutation_in _ P). apply in_or_app. left. apply nth_error_In in E. auto. }
      apply in_tags in B.
      assert (M : (0 < length (sd_vars s))%nat) by (destruct (sd_vars s); [congruence|cbn; lia]).
      right; constructor; cbn [sd_vars sd_rest sd_at sd_left sd_over sd_jobs sd_sent]; auto.
      * rewrite map_app. cbn [map fst]. rewrite <- P. rewrite WP at 2. rewrite app_assoc, Permutation_app_comm. reflexivity.
      * apply Forall_app. split; [auto|]. constructor; [|constructor].
        destruct (nth_error (sd_vars s) it) as [v|] eqn:EV; [|apply nth_error_None in EV; lia].
        rewrite (nth_error_nth _ _ _ EV). apply (W it v k EV); lia.
Qed.

Lemma run_inv arr n : forall es s, inv arr n s -> takes_all es -> inv arr n (sender_run arr es s).
Proof.
  induction es as [|e es IH]; intros s I T; [exact I|]. inversion T; subst. apply (IH (sender_step arr s e)); auto. apply step_inv; auto.
Qed.
Lemma inv_new arr n : inv arr n (new_sender n).
Proof. left. unfold fresh, new_sender. cbn. repeat split; auto. discriminate. Qed.

(** ** Theorems *)
(** However the pool runs the jobs: the number of messages is exact, and the message meant for
    position k of the list goes to a number at position k or later. *)
Theorem C81_each_partial : forall arr n es, 0 <= n -> takes_all es ->
  let s := sender_run arr es (new_sender n) in
  Forall (fun '(_, k, p) => at_or_after arr p k) (sd_sent s) /\
  (complete s -> arr <> [] ->
     Permutation (map fst (sd_sent s)) (list_prod (seq 0 (Z.to_nat n)) (seq 0 (length arr))) /\
     length (numbers s) = (Z.to_nat n * length arr)%nat).
Proof.
  intros arr n es Hn T s. pose proof (run_inv arr n es _ (inv_new arr n) T) as I. fold s in I. split.
  - destruct I as [F|G]; [|apply G]. destruct F as (_ & _ & _ & _ & E & _). rewrite E. constructor.
  - intros (O & J) NE.
    assert (P : Permutation (map fst (sd_sent s)) (list_prod (seq 0 (Z.to_nat n)) (seq 0 (length arr)))).
    { destruct I as [F|G].
      - destruct F as (_ & _ & _ & _ & E & _ & B). rewrite E. specialize (B O). replace (Z.to_nat n) with 0%nat by lia. constructor.
      - pose proof (g_tags _ _ _ G) as P. rewrite J in P. cbn [app] in P. destruct (g_over _ _ _ G O) as (L & A).
        pose proof (g_sum _ _ _ G) as S1. rewrite L in S1. rewrite A in P. rewrite P.
        assert (V : (0 < length (sd_vars s))%nat) by (pose proof (g_vars _ _ _ G); destruct (sd_vars s); [congruence|cbn; lia]).
        rewrite <- tags_next by auto. unfold tags. cbn [seq map]. rewrite app_nil_r.
        replace (S (length (sd_vars s)) - 1)%nat with (Z.to_nat n) by lia. reflexivity. }
    split; [exact P|]. unfold numbers. rewrite map_length. apply Permutation_length in P. rewrite map_length in P. rewrite P, prod_length, !seq_length. reflexivity.
Qed.
Lemma Permutation_filter {A} (f : A -> bool) l l' : Permutation l l' -> Permutation (filter f l) (filter f l').
Proof.
  induction 1 as [|x l l' P IH|x y l|l1 l2 l3 P1 IH1 P2 IH2]; cbn; auto.
  - destruct (f x); auto.
  - destruct (f x), (f y); auto. apply perm_swap.
  - eapply Permutation_trans; eauto.
Qed.
(** In particular only listed numbers get a message, and the last one gets at least its share. *)
Lemma at_or_after_last pre z p : at_or_after (pre ++ [z]) p (length pre) -> p = z.
Proof.
  intros (j & Hj & E). rewrite nth_error_app2 in E by lia. destruct (j - length pre)%nat; cbn in E; [congruence|]. destruct n; discriminate.
Qed.
Theorem C81_last_partial : forall pre z n es, 0 <= n -> takes_all es ->
  let s := sender_run (pre ++ [z]) es (new_sender n) in
  complete s -> Forall (fun p => In p (pre ++ [z])) (numbers s) /\ (Z.to_nat n <= how_often z (numbers s))%nat.
Proof.
  intros pre z n es Hn T s C. destruct (C81_each_partial (pre ++ [z]) n es Hn T) as (F & G). fold s in F, G.
  destruct (G C) as (P & L). { destruct pre; discriminate. }
  split.
  - apply Forall_forall. intros p I. unfold numbers in I. apply in_map_iff in I. destruct I as ([[it k] q] & <- & I). rewrite Forall_forall in F.
    destruct (F _ I) as (j & _ & E). apply nth_error_In in E. exact E.
  - unfold numbers, how_often. set (l := sd_sent s) in *. clearbody l. clear s C L G.
    assert (H : (Z.to_nat n <= length (filter (fun t : nat * nat => Nat.eqb (snd t) (length pre)) (map fst l)))%nat).
    { rewrite (Permutation_length (Permutation_filter _ _ _ P)). rewrite app_length. cbn [length]. rewrite Nat.add_1_r. clear. 
      generalize (seq 0 (Z.to_nat n)), (seq_length (Z.to_nat n) 0). intros q. generalize (Z.to_nat n). induction q as [|x q IH]; intros m; cbn [length list_prod]; [intros <-; lia|].
      intros <-. rewrite filter_app, app_length. specialize (IH _ eq_refl).
      assert (1 <= length (filter (fun t : nat * nat => Nat.eqb (snd t) (length pre)) (map (fun y => (x, y)) (seq 0 (S (length pre))))))%nat; [|lia].
      rewrite seq_S, map_app, filter_app, app_length. cbn [map filter snd]. rewrite Nat.add_0_l, Nat.eqb_refl. cbn. lia. }
    eapply Nat.le_trans; [exact H|]. clear H P Hn. induction l as [|[[it k] q] l IH]; [cbn; lia|]. inversion F as [|? ? F1 F2]; subst. specialize (IH F2).
    cbn [map fst snd filter count_occ]. destruct (Nat.eqb_spec k (length pre)) as [->|N].
    + apply at_or_after_last in F1. subst q. destruct (list_eq_dec Z.eq_dec z z); [cbn; lia|congruence].
    + destruct (list_eq_dec Z.eq_dec q z); lia.
Qed.

(** *** Schedules *)
Lemma run_app arr es1 es2 s : sender_run arr (es1 ++ es2) s = sender_run arr es2 (sender_run arr es1 s).
Proof. apply fold_left_app. Qed.
Lemma takes_loops n : takes_all (repeat (EvLoop true) n).
Proof. apply Forall_forall. intros e I. apply repeat_spec in I. subst. reflexivity. Qed.
Lemma takes_jobs n : takes_all (repeat (EvJob 0) n).
Proof. apply Forall_forall. intros e I. apply repeat_spec in I. subst. exact Logic.I. Qed.
Lemma set_last_app v x y : set_last (v ++ [x]) y = v ++ [y].
Proof. unfold set_last. rewrite removelast_last. reflexivity. Qed.
Lemma last_first (l : list bytes) : forall p x, last (p :: l) x = last l p.
Proof.
  induction l as [|q l IH]; intros p x; [reflexivity|]. change (last (p :: q :: l) x) with (last (q :: l) x). rewrite !IH. reflexivity.
Qed.
(** All rounds of one range statement, no job started. *)
Lemma rounds arr : forall l left a v x jobs sent,
  sender_run arr (repeat (EvLoop true) (length l)) (Sender left l a (v ++ [x]) jobs sent false)
  = Sender left [] (a + length l) (v ++ [last l x]) (jobs ++ map (pair (length v)) (seq a (length l))) sent false.
Proof.
  induction l as [|p l IH]; intros left a v x jobs sent; cbn [length repeat seq map].
  - cbn. rewrite app_nil_r, Nat.add_0_r. reflexivity.
  - unfold sender_run in *. cbn [fold_left sender_step sd_over sd_rest sd_vars sd_left sd_at sd_jobs sd_sent]. rewrite set_last_app.
    replace (length (v ++ [p]) - 1)%nat with (length v) by (rewrite app_length; cbn; lia). rewrite IH. rewrite <- app_assoc. cbn [app].
    replace (a + S (length l))%nat with (S a + length l)%nat by lia. rewrite last_first. reflexivity.
Qed.
Lemma last_pre (pre : list bytes) z x : last (pre ++ [z]) x = z.
Proof. apply last_last. Qed.
(** All passes, no job started: every variable then holds the last number. *)
Lemma passes pre z : forall m left a vars jobs sent, Z.of_nat m = left -> Forall (eq z) vars ->
  exists k vars' jobs' a', sender_run (pre ++ [z]) (repeat (EvLoop true) k) (Sender left [] a vars jobs sent false)
    = Sender 0 [] a' vars' jobs' sent true /\ Forall (eq z) vars' /\ length vars' = (length vars + m)%nat /\
      (Forall (fun t => fst t < length vars)%nat jobs -> Forall (fun t => fst t < length vars')%nat jobs').
Proof.
  induction m as [|m IH]; intros left a vars jobs sent E F.
  - exists 1%nat, vars, jobs, a. subst left. split; [reflexivity|]. split; [auto|]. split; [lia|auto].
  - destruct (IH (left - 1) (length (pre ++ [z])) (vars ++ [z]) (jobs ++ map (pair (length vars)) (seq 0 (length (pre ++ [z])))) sent) as (k & vars' & jobs' & a' & R & F' & L & J); [lia| |].
    + apply Forall_app. auto.
    + exists (1 + (length (pre ++ [z]) + k))%nat, vars', jobs', a'. split; [|split; [auto|split]].
      * rewrite !repeat_app, !run_app. cbn [repeat]. change (sender_run (pre ++ [z]) [EvLoop true] ?x) with (sender_step (pre ++ [z]) x (EvLoop true)).
        cbn [sender_step sd_over sd_rest sd_left sd_vars sd_jobs sd_sent]. destruct (Z.ltb_spec 0 left); [|lia].
        rewrite rounds, last_pre. exact R.
      * rewrite L, app_length. cbn. lia.
      * intros Q. apply J. rewrite app_length. cbn [length]. apply Forall_app. split.
        -- revert Q. apply Forall_impl. intros t. lia.
        -- apply Forall_forall. intros t I. apply in_map_iff in I. destruct I as (y & <- & _). cbn. lia.
Qed.
Lemma drain arr z : forall jobs left rest a vars sent, Forall (eq z) vars -> Forall (fun t => fst t < length vars)%nat jobs ->
  exists sent', sender_run arr (repeat (EvJob 0) (length jobs)) (Sender left rest a vars jobs sent true)
    = Sender left rest a vars [] (sent ++ sent') true /\ Forall (fun t => snd t = z) sent' /\ length sent' = length jobs.
Proof.
  induction jobs as [|[it k] jobs IH]; intros left rest a vars sent F B.
  - exists []. rewrite app_nil_r. repeat split; constructor.
  - inversion B as [|? ? B1 B2]; subst. cbn [fst] in B1.
    destruct (IH left rest a vars (sent ++ [(it, k, nth it vars [])]) F B2) as (sent' & R & Q & L).
    exists ((it, k, nth it vars []) :: sent'). split; [|split].
    + cbn [length repeat]. unfold sender_run in *. cbn [fold_left sender_step nth_error sd_jobs sd_left sd_rest sd_at sd_vars sd_sent sd_over].
      change (without 0 ((it, k) :: jobs)) with jobs. rewrite R. rewrite <- app_assoc. reflexivity.
    + constructor; auto. cbn [snd]. rewrite Forall_forall in F. symmetry. apply F. apply nth_In. auto.
    + cbn. lia.
Qed.
(** Refuted for every list and every number of iterations: with a pool that starts the jobs after
    the goroutine has ended, all messages go to the last number, none to any other. *)
Theorem C81_refuted : forall pre z n, 0 <= n -> exists es, takes_all es /\
  let s := sender_run (pre ++ [z]) es (new_sender n) in
  complete s /\ numbers s = repeat z (Z.to_nat n * length (pre ++ [z])) /\
  (forall p, p <> z -> how_often p (numbers s) = 0%nat).
Proof.
  intros pre z n Hn.
  destruct (passes pre z (Z.to_nat n) n 0 [] [] [] ltac:(lia) ltac:(constructor)) as (k & vars' & jobs' & a' & R & F & L & J).
  destruct (drain (pre ++ [z]) z jobs' 0 [] a' vars' [] F (J ltac:(constructor))) as (sent' & R2 & Q & L2).
  exists (repeat (EvLoop true) k ++ repeat (EvJob 0) (length jobs')).
  assert (T : takes_all (repeat (EvLoop true) k ++ repeat (EvJob 0) (length jobs'))).
  { apply Forall_app. split; [apply takes_loops|apply takes_jobs]. }
  split; [exact T|]. intros s.
  assert (E : s = Sender 0 [] a' vars' [] sent' true).
  { unfold s, new_sender. rewrite run_app, R. exact R2. }
  assert (C : complete s) by (rewrite E; split; reflexivity).
  destruct (C81_each_partial (pre ++ [z]) n _ Hn T) as (_ & G). fold s in G. destruct (G C) as (_ & N); [destruct pre; discriminate|].
  assert (NU : numbers s = repeat z (Z.to_nat n * length (pre ++ [z]))).
  { rewrite <- N. unfold numbers. rewrite E. cbn [sd_sent]. clear - Q. induction Q as [|t l H Q IH]; cbn; [reflexivity|]. rewrite H. f_equal. exact IH. }
  split; [exact C|]. split; [exact NU|]. intros p D. rewrite NU. unfold how_often. clear - D. induction (Z.to_nat n * length (pre ++ [z]))%nat as [|m IH]; [reflexivity|].
  cbn [repeat count_occ]. destruct (list_eq_dec Z.eq_dec z p); [congruence|exact IH].
Qed.
(** If every job starts before the next round, exactly what was ordered is sent. *)
Definition prompt (arr : list bytes) (n : nat) : list sev :=
  concat (repeat (EvLoop true :: concat (repeat [EvLoop true; EvJob 0] (length arr))) n) ++ [EvLoop true].
Lemma prompt_rounds arr : forall l left a v x sent,
  exists sent', sender_run arr (concat (repeat [EvLoop true; EvJob 0] (length l))) (Sender left l a (v ++ [x]) [] sent false)
  = Sender left [] (a + length l) (v ++ [last l x]) [] (sent ++ sent') false /\ map snd sent' = l.
Proof.
  induction l as [|p l IH]; intros left a v x sent; cbn [length repeat concat app].
  - exists []. cbn. rewrite app_nil_r, Nat.add_0_r. auto.
  - unfold sender_run in *. cbn [fold_left sender_step sd_over sd_rest sd_vars sd_left sd_at sd_jobs sd_sent app nth_error]. rewrite set_last_app.
    replace (length (v ++ [p]) - 1)%nat with (length v) by (rewrite app_length; cbn; lia). cbn [without firstn skipn app].
    rewrite app_nth2, Nat.sub_diag by lia. cbn [nth].
    destruct (IH left (S a) v p (sent ++ [(length v, a, p)])) as (sent' & R & M). change (without 0 [(length v, a)]) with (@nil (nat * nat)).
    exists ((length v, a, p) :: sent'). rewrite R. split; [|cbn; congruence].
    rewrite <- app_assoc. cbn [app]. replace (a + S (length l))%nat with (S a + length l)%nat by lia. rewrite last_first. reflexivity.
Qed.
Theorem C81_prompt_partial : forall arr n,
  let s := sender_run arr (prompt arr n) (new_sender (Z.of_nat n)) in
  takes_all (prompt arr n) /\ complete s /\ numbers s = ordered arr n.
Proof.
  intros arr n s. split.
  - apply Forall_app. split; [|repeat constructor]. apply Forall_concat. apply Forall_forall. intros e I. apply repeat_spec in I. subst. constructor; [reflexivity|].
    apply Forall_concat. apply Forall_forall. intros e I. apply repeat_spec in I. subst. repeat constructor.
  - assert (G : forall m a vars sent, exists a' vars' sent',
      sender_run arr (concat (repeat (EvLoop true :: concat (repeat [EvLoop true; EvJob 0] (length arr))) m)) (Sender (Z.of_nat m) [] a vars [] sent false)
      = Sender 0 [] a' vars' [] (sent ++ sent') false /\ map snd sent' = ordered arr m).
    { induction m as [|m IH]; intros a vars sent.
      - exists a, vars, []. cbn. rewrite app_nil_r. auto.
      - cbn [repeat concat]. rewrite run_app.
        change (sender_run arr (EvLoop true :: ?l) ?x) with (sender_run arr l (sender_step arr x (EvLoop true))).
        cbn [sender_step sd_over sd_rest sd_left sd_vars sd_jobs sd_sent]. destruct (Z.ltb_spec 0 (Z.of_nat (S m))); [|lia].
        replace (Z.of_nat (S m) - 1) with (Z.of_nat m) by lia.
        destruct (prompt_rounds arr arr (Z.of_nat m) 0 vars [] sent) as (s1 & R1 & M1). unfold bytes in *. rewrite R1.
        destruct (IH (0 + length arr)%nat (vars ++ [last arr []]) (sent ++ s1)) as (a' & v' & s2 & R2 & M2). rewrite R2.
        exists a', v', (s1 ++ s2). rewrite app_assoc, map_app, M1, M2. auto. }
    destruct (G n 0%nat [] []) as (a' & v' & s' & R & M). unfold s, prompt. rewrite run_app. unfold new_sender. rewrite R.
    split; [split; reflexivity|]. exact M.
Qed.
(** Two numbers, two iterations: a schedule of a busy pool. *)
Example C81_case :
  let arr := split_comma [49; 44; 50] in
  arr = [[49]; [50]] /\
  numbers (sender_run arr [EvLoop true; EvLoop true; EvLoop true; EvJob 1; EvLoop true; EvLoop true; EvJob 0; EvJob 0; EvLoop true; EvJob 0; EvLoop true] (new_sender 2))
  = [[50]; [50]; [49]; [50]].
Proof. split; reflexivity. Qed.
Print Assumptions C81_listed.
Print Assumptions C81_each_partial.
Print Assumptions C81_last_partial.
Print Assumptions C81_refuted.
Print Assumptions C81_prompt_partial.
