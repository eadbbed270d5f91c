(** * C86: results of sends and the journal in the database *)
From Coq Require Import Sorting.Permutation.
From Verif Require Import Base ClientModel SpecClient ClientProofs PropClient JournalModel.

(** ** What is claimed *)
(** A result that a finished send produced. *)
Definition produced (j : jstate) (p : nat) : Prop := exists t s, nth_error (ct_send (j_c j)) t = Some s /\ sn_ph s = SDone /\ In p (sn_res s).
(** Where a result can be: still to be queried, on its way, in the database, nowhere. *)
Definition cached (j : jstate) : list nat := flat_map snd (ca_query (ct_ca (j_c j))).
Definition queued (j : jstate) : list nat := concat (j_queue j).
Definition saved (j : jstate) : list nat := map fst (j_db j).

(** ** Proofs *)
(** The journal's client is a client. *)
Definition cev (e : jevent) : list cevent := match e with JClient (CSweepQ _ _ _) => [] | JClient e => [e] | JSweep d now _ => [CSweepQ true d now] | _ => [] end.
Lemma jstep_client pr j e j1 : jstep pr j e = Ok j1 -> crun pr (j_c j) (cev e) = Ok (j_c j1).
Proof.
  destruct e as [e|d now taken|k st|]; cbn [jstep]; intros H.
  - destruct e; try (apply bind_ok in H as (c & E & H); injection H as <-; cbn [cev crun j_c]; rewrite E; reflexivity). injection H as <-. reflexivity.
  - cbn [cev crun cstep]. destruct (cleanQueryCacheMap true (ct_ca (j_c j)) d now (ca_query (ct_ca (j_c j)))) as [ca out]. destruct (hand_over (j_open j) taken out (j_queue j) (j_lost j)) as [qu lo]. injection H as <-. reflexivity.
  - destruct (nth_error (j_queue j) k); injection H as <-; reflexivity.
  - injection H as <-. reflexivity.
Qed.
Lemma jrun_client pr es : forall j j1, jrun pr j es = Ok j1 -> crun pr (j_c j) (flat_map cev es) = Ok (j_c j1).
Proof.
  induction es as [|e es IH]; intros j j1 H; cbn [jrun] in H; [injection H as <-; reflexivity|]. apply bind_ok in H as (j0 & E & H). cbn [flat_map]. rewrite crun_app, (jstep_client _ _ _ _ E). cbn [bind]. apply IH. exact H.
Qed.
Lemma jrun_app pr a : forall j b, jrun pr j (a ++ b) = bind (jrun pr j a) (fun j1 => jrun pr j1 b).
Proof. induction a as [|e a IH]; intros j b; cbn [app jrun]; [reflexivity|]. destruct (jstep pr j e); cbn [bind]; [apply IH|reflexivity|reflexivity]. Qed.

(** Results of a sender are its own, each once. *)
Definition held (s : sender) : list nat := sn_res s ++ match sn_ph s with SPart _ _ _ done => done | SWrote _ _ _ _ _ done => done | _ => [] end.
Definition hinv (c : cstate) : Prop := forall t s, nth_error (ct_send c) t = Some s -> NoDup (held s) /\ Forall (fun p => (p < length (ca_heap (ct_ca c)))%nat) (held s).
Lemma hinv_put c c1 t s s1 : hinv c -> nth_error (ct_send c) t = Some s -> ct_send c1 = firstn t (ct_send c) ++ [s1] ++ skipn (S t) (ct_send c) -> (length (ca_heap (ct_ca c)) <= length (ca_heap (ct_ca c1)))%nat ->
  NoDup (held s1) -> Forall (fun p => (p < length (ca_heap (ct_ca c1)))%nat) (held s1) -> hinv c1.
Proof.
  intros H N S L ND F t' s' N'. rewrite S, (nth_upd _ _ _ _ N) in N'. destruct (t' =? t)%nat; [injection N' as <-; auto|]. destruct (H t' s' N') as [A B]. split; [exact A|]. revert B. apply Forall_impl. lia.
Qed.
Lemma hinv_same c c1 : hinv c -> ct_send c1 = ct_send c -> (length (ca_heap (ct_ca c)) <= length (ca_heap (ct_ca c1)))%nat -> hinv c1.
Proof. intros H S L t s N. rewrite S in N. destruct (H t s N) as [A B]. split; [exact A|]. revert B. apply Forall_impl. lia. Qed.
Lemma nodup_app_inv {A} (a b : list A) : NoDup (a ++ b) -> NoDup a /\ NoDup b /\ forall x, In x a -> ~ In x b.
Proof.
  induction a as [|x a IH]; cbn [app]; intros H; [split; [constructor|]; split; [exact H|intros x []]|]. inversion H; subst. destruct (IH H3) as (P & Q & R). split; [constructor; [intros X; apply H2, in_or_app; auto|exact P]|]. split; [exact Q|].
  intros y [->|Y]; [intros X; apply H2, in_or_app; auto|apply R, Y].
Qed.
Lemma nodup_app_mk {A} (a b : list A) : NoDup a -> NoDup b -> (forall x, In x a -> ~ In x b) -> NoDup (a ++ b).
Proof.
  induction a as [|x a IH]; cbn [app]; intros P Q R; [exact Q|]. inversion P; subst. constructor; [|apply IH; auto; intros y Y; apply R; right; exact Y].
  intros X. apply in_app_or in X as [X|X]; [contradiction|]. exact (R x (or_introl eq_refl) X).
Qed.
Lemma hinv_step pr c e c1 : sinv c -> hinv c -> cstep pr c e = Ok c1 -> hinv c1.
Proof.
  intros I HI H. destruct e as [q msg ops phones|t choice d now|t ok now|t now|t|i cmd seq body o|i|h d now|d now|d now]; cbn [cstep] in H.
  - destruct phones; injection H as <-; [exact HI|]. intros t s N. cbn [ct_send] in N. destruct (Nat.lt_ge_cases t (length (ct_send c))) as [L|L]; [rewrite nth_error_app1 in N by exact L; exact (HI t s N)|].
    rewrite nth_error_app2 in N by exact L. destruct (t - length (ct_send c))%nat; [|destruct n; discriminate N]. cbn in N. injection N as <-. split; constructor.
  - destruct (nth_error (ct_send c) t) as [s|] eqn:N; [|injection H as <-; exact HI].
    destruct (sn_ph s) eqn:PH; try (injection H as <-; exact HI). destruct (sn_todo s) as [|phone rest] eqn:TD; [injection H as <-; exact HI|].
    assert (HS : held s = sn_res s) by (unfold held; rewrite PH, app_nil_r; reflexivity). destruct (HI t s N) as [A B]. rewrite HS in A, B.
    destruct choice as [i|]; [|injection H as <-; eapply (hinv_put c _ t s _ HI N); [reflexivity|cbn; lia|unfold held; cbn [phase sn_res sn_ph]; rewrite app_nil_r; exact A|unfold held; cbn [phase sn_res sn_ph]; rewrite app_nil_r; exact B]].
    destruct (nth_error (ct_sess c) i) as [ss|] eqn:NS; [|injection H as <-; exact HI]. destruct (HealthCheck ss); [|injection H as <-; exact HI].
    destruct (cs_ac ss) as [ac|]; [|injection H as <-; exact HI]. apply bind_ok in H as (parts & SG & H).
    destruct parts as [|x parts]; injection H as <-.
    + match goal with |- context [used ?c2 i now] => destruct (used_rest c2 i now) as (U1 & U2 & U3) end.
      eapply (hinv_put c _ t s (phase s rest (sn_res s) SNext) HI N); [unfold say; cbn [ct_send]; rewrite U2; reflexivity|unfold say; cbn [ct_ca]; rewrite U1; cbn; lia|unfold held; cbn [phase sn_res sn_ph]; rewrite app_nil_r; exact A|unfold say; cbn [ct_ca]; rewrite U1; unfold held; cbn [phase sn_res sn_ph]; rewrite app_nil_r; exact B].
    + eapply (hinv_put c _ t s _ HI N); [reflexivity|cbn; lia|unfold held; cbn [phase sn_res sn_ph]; rewrite app_nil_r; exact A|unfold held; cbn [phase sn_res sn_ph]; rewrite app_nil_r; exact B].
  - destruct (nth_error (ct_send c) t) as [s|] eqn:N; [|injection H as <-; exact HI].
    destruct (sn_ph s) as [|i phone parts done|i phone b key parts done|] eqn:PH; try (injection H as <-; exact HI). destruct parts as [|[enc key] r]; [injection H as <-; exact HI|].
    assert (HS : held s = sn_res s ++ done) by (unfold held; rewrite PH; reflexivity). destruct (HI t s N) as [A B]. rewrite HS in A, B.
    destruct (nth_error (ct_sess c) i) as [ss|] eqn:NS; [|injection H as <-; exact HI]. apply bind_ok in H as (b & B0 & H).
    destruct ok; [injection H as <-; eapply (hinv_put c _ t s _ HI N); [reflexivity|cbn; lia|exact A|exact B]|].
    apply bind_ok in H as (s1 & CL & H). injection H as <-. match goal with |- context [used ?c2 i now] => destruct (used_rest c2 i now) as (U1 & U2 & U3) end.
    eapply (hinv_put c _ t s (phase s (sn_todo s) (sn_res s) SNext) HI N); [unfold say; cbn [ct_send]; rewrite U2; reflexivity|unfold say; cbn [ct_ca]; rewrite U1; cbn; lia| |].
    + unfold held; cbn [phase sn_res sn_ph]; rewrite app_nil_r. exact (proj1 (nodup_app_inv _ _ A)).
    + unfold say; cbn [ct_ca]; rewrite U1; unfold held; cbn [phase sn_res sn_ph]; rewrite app_nil_r. apply Forall_app in B as [B _]. exact B.
  - destruct (nth_error (ct_send c) t) as [s|] eqn:N; [|injection H as <-; exact HI].
    destruct (sn_ph s) as [|i phone parts done|i phone b key r done|] eqn:PH; try (injection H as <-; exact HI). cbv zeta in H.
    assert (HS : held s = sn_res s ++ done) by (unfold held; rewrite PH; reflexivity). destruct (HI t s N) as [A B]. rewrite HS in A, B.
    set (p := length (ca_heap (ct_ca c))) in *.
    assert (A1 : NoDup (sn_res s ++ done ++ [p])).
    { rewrite app_assoc. apply nodup_app_mk; [exact A|constructor; [intros []|constructor]|]. intros x X [<-|[]]. rewrite Forall_forall in B. specialize (B _ X). lia. }
    assert (B1 : Forall (fun k => (k < length (ca_heap (ct_ca c) ++ [Result 0 phone key 0 [] [] now 0 0]))%nat) (sn_res s ++ done ++ [p])).
    { rewrite app_length. cbn [length]. fold p. rewrite app_assoc. apply Forall_app. split; [revert B; apply Forall_impl; intros; lia|]. constructor; [lia|constructor]. }
    destruct r as [|x r]; injection H as <-.
    + match goal with |- context [used ?c2 i now] => destruct (used_rest c2 i now) as (U1 & U2 & U3) end.
      eapply (hinv_put c _ t s (phase s (sn_todo s) (sn_res s ++ done ++ [p]) SNext) HI N); [rewrite U2; reflexivity| | |].
      * rewrite U1. cbn [say put_ca put_send ct_ca ca_heap]. rewrite app_length. lia.
      * unfold held; cbn [phase sn_res sn_ph]; rewrite app_nil_r. exact A1.
      * rewrite U1. cbn [say put_ca put_send ct_ca ca_heap]. unfold held; cbn [phase sn_res sn_ph]; rewrite app_nil_r. exact B1.
    + eapply (hinv_put c _ t s (phase s (sn_todo s) (sn_res s) (SPart i phone (x :: r) (done ++ [p]))) HI N); [reflexivity| | |].
      * cbn [say put_ca put_send ct_ca ca_heap]. rewrite app_length. lia.
      * exact A1.
      * exact B1.
  - destruct (nth_error (ct_send c) t) as [s|] eqn:N; [|injection H as <-; exact HI].
    destruct (sn_ph s) eqn:PH; try (injection H as <-; exact HI). destruct (sn_todo s) as [|phone rest] eqn:TD; [|injection H as <-; exact HI].
    assert (HS : held s = sn_res s) by (unfold held; rewrite PH, app_nil_r; reflexivity). destruct (HI t s N) as [A B]. rewrite HS in A, B.
    assert (LH : length (fold_left (fun h p => upd_heap h p (set_qid (sn_q s))) (sn_res s) (ca_heap (ct_ca c))) = length (ca_heap (ct_ca c))).
    { rewrite <- (map_length rt_send), (set_qids_map rt_send) by reflexivity. apply map_length. }
    injection H as <-. eapply (hinv_put c _ t s _ HI N); [reflexivity| | |].
    + cbn [say put_ca put_send ct_ca saveQueryCache ca_heap]. rewrite LH. lia.
    + unfold held; cbn [phase sn_res sn_ph]; rewrite app_nil_r. exact A.
    + cbn [say put_ca put_send ct_ca saveQueryCache ca_heap]. rewrite LH. unfold held; cbn [phase sn_res sn_ph]; rewrite app_nil_r. exact B.
  - destruct (nth_error (ct_sess c) i) as [ss|] eqn:NS; [|injection H as <-; exact HI]. apply bind_ok in H as ([[s1 ca] out] & G & H). injection H as <-.
    apply handler_eff in G as [GP G]. apply (heff_got c) in G; [|exact I]. apply (hinv_same c); [exact HI|reflexivity|]. cbn [say put_ca ct_ca].
    assert (L : length (ca_heap ca) = length (ca_heap (ct_ca c))); [|lia].
    destruct (cs_p ss); cbn [got_eff] in G; [rewrite G; reflexivity| |rewrite G; reflexivity]. destruct (cmd =? 2147483651); [|rewrite G; reflexivity]. destruct G as (r & D & G). rewrite G.
    unfold answered. destruct (load ckey_eqb _ _) as [p|]; [|reflexivity]. cbn [ca_heap].
    rewrite <- (map_length rt_send), (upd_heap_map rt_send) by reflexivity. apply map_length.
  - destruct (nth_error (ct_sess c) i) as [ss|] eqn:NS; [|injection H as <-; exact HI]. apply bind_ok in H as (s1 & CL & H). injection H as <-. apply (hinv_same c); [exact HI|reflexivity|cbn; lia].
  - injection H as <-. apply (hinv_same c); [exact HI|reflexivity|]. unfold cleanQueryCacheMap. destruct (sweep_query _ _ _ _ _ _ _ _) as [[? ?] ?]. cbn. lia.
  - injection H as <-. apply (hinv_same c); [exact HI|reflexivity|cbn; lia].
  - injection H as <-. apply (hinv_same c); [exact HI|reflexivity|cbn; lia].
Qed.

Definition all (j : jstate) : list nat := cached j ++ queued j ++ saved j ++ j_lost j.
Record jinv (j : jstate) : Prop := {
  ji_s : sinv (j_c j); ji_h : hinv (j_c j); ji_q : NoDup (map fst (ca_query (ct_ca (j_c j))));
  ji_nd : NoDup (all j); ji_in : forall p, In p (all j) -> produced j p;
  ji_all : forall t s, nth_error (ct_send (j_c j)) t = Some s -> sn_ph s = SDone -> sole (j_c j) t s -> incl (sn_res s) (all j) }.
Lemma jinv_start l : jinv (jstart l).
Proof.
  split; [apply sinv_start|intros [|t] s N; discriminate N|constructor|constructor|intros p []|intros [|t] s N; discriminate N].
Qed.
Lemma sole_back pr c e c1 t s : cstep pr c e = Ok c1 -> sole c1 t s -> sole c t s.
Proof. intros H SO t' s' N' E'. destruct (sends_keep pr c e c1 t' s' H N') as (s1 & N1 & E1 & _). apply (SO t' s1 N1). congruence. Qed.
(** Who a result belongs to. *)
Lemma same_owner c t s t' s' p : sinv c -> nth_error (ct_send c) t = Some s -> nth_error (ct_send c) t' = Some s' -> In p (sn_res s) -> In p (sn_res s') -> t = t'.
Proof.
  intros I N N' P P'. destruct (si_snd _ I t s N) as [O _]. destruct (si_snd _ I t' s' N') as [O' _]. destruct (O p P) as (a & b & E). destruct (O' p P') as (a' & b' & E'). congruence.
Qed.
Lemma in_cached j p : In p (cached j) <-> exists q l, In (q, l) (ca_query (ct_ca (j_c j))) /\ In p l.
Proof. unfold cached. rewrite in_flat_map. split; [intros ([q l] & A & B); eauto|intros (q & l & A & B); exists (q, l); auto]. Qed.
(** A client step other than a sweep. *)
Lemma jinv_client pr j e c1 : jinv j -> (forall h d now, e <> CSweepQ h d now) -> cstep pr (j_c j) e = Ok c1 -> jinv (JState c1 (j_open j) (j_queue j) (j_db j) (j_lost j)).
Proof.
  intros J NS H. pose proof (ji_s _ J) as I. pose proof (sinv_step pr _ _ _ I H) as I1. pose proof (hinv_step pr _ _ _ I (ji_h _ J) H) as H1.
  assert (KEEP : forall p, produced j p -> produced (JState c1 (j_open j) (j_queue j) (j_db j) (j_lost j)) p).
  { intros p (t & s & N & D & P). destruct (sends_keep pr _ _ _ t s H N) as (s1 & N1 & _ & E1). rewrite (E1 D) in N1. exists t, s. auto. }
  assert (K : (ca_query (ct_ca c1) = ca_query (ct_ca (j_c j)) /\ forall t s, nth_error (ct_send c1) t = Some s -> sn_ph s = SDone -> nth_error (ct_send (j_c j)) t = Some s)
    \/ exists t0 s0, nth_error (ct_send (j_c j)) t0 = Some s0 /\ sn_ph s0 = SNext /\ ct_send c1 = firstn t0 (ct_send (j_c j)) ++ [phase s0 [] (sn_res s0) SDone] ++ skipn (S t0) (ct_send (j_c j)) /\ ca_query (ct_ca c1) = store_at Z.eqb (sn_q s0) (sn_res s0) (ca_query (ct_ca (j_c j)))).
  { destruct (qkinds pr _ _ _ I H) as [EQ ED|t0 s0 -> N0 ES EQ|h d now -> _ _]; [left; auto| |exfalso; exact (NS h d now eq_refl)].
    cbn [cstep] in H. rewrite N0 in H. destruct (sn_ph s0) eqn:PH; try (injection H as <-; left; split; [reflexivity|auto]). right. exists t0, s0. auto. }
  destruct K as [[EQ ED]|(t0 & s0 & N0 & PH & ES & EQ)].
  - assert (EA : all (JState c1 (j_open j) (j_queue j) (j_db j) (j_lost j)) = all j) by (unfold all, cached; cbn [j_c]; rewrite EQ; reflexivity).
    split; [exact I1|exact H1|cbn [j_c]; rewrite EQ; exact (ji_q _ J)|rewrite EA; exact (ji_nd _ J)|rewrite EA; intros p P; apply KEEP, (ji_in _ J p P)|].
    rewrite EA. cbn [j_c]. intros t s N D SO. apply (ji_all _ J t s (ED t s N D) D). exact (sole_back pr _ _ _ t s H SO).
  - set (j1 := JState c1 (j_open j) (j_queue j) (j_db j) (j_lost j)) in *.
    assert (N1 : nth_error (ct_send c1) t0 = Some (phase s0 [] (sn_res s0) SDone)) by (rewrite ES, (nth_upd _ _ _ _ N0), Nat.eqb_refl; reflexivity).
    set (rest := remove Z.eqb (sn_q s0) (ca_query (ct_ca (j_c j)))) in *.
    assert (EC : cached j1 = sn_res s0 ++ flat_map snd rest) by (unfold cached; cbn [j1 j_c]; rewrite EQ; reflexivity).
    assert (SUB : incl (flat_map snd rest) (cached j)) by (intros p P; apply in_flat_map in P as (x & X & P); apply in_flat_map; exists x; split; [apply (remove_incl _ _ _ _ X)|exact P]).
    assert (OLD : forall p, In p (flat_map snd rest ++ queued j ++ saved j ++ j_lost j) -> In p (all j)) by (intros p P; unfold all; apply in_app_or in P as [P|P]; apply in_or_app; [left; apply SUB, P|right; exact P]).
    assert (FR : forall p, In p (sn_res s0) -> ~ In p (all j)).
    { intros p P X. destruct (ji_in _ J p X) as (t & s & N & D & Q). assert (t = t0) by (apply (same_owner (j_c j) t s t0 s0 p I N N0 Q P)). subst t. congruence. }
    destruct (ji_h _ J t0 s0 N0) as [ND0 _]. unfold held in ND0. rewrite PH, app_nil_r in ND0.
    split; [exact I1|exact H1|cbn [j1 j_c]; rewrite EQ; apply nodup_store; exact (ji_q _ J)| | |].
    + unfold all. rewrite EC. change (queued j1) with (queued j). change (saved j1) with (saved j). change (j_lost j1) with (j_lost j). rewrite <- app_assoc. apply nodup_app_mk; [exact ND0| |intros p P X; exact (FR p P (OLD p X))].
      pose proof (ji_nd _ J) as ND. unfold all in ND. apply nodup_app_inv in ND as (A & B & C). apply nodup_app_mk; [|exact B|intros p P; apply C, SUB, P].
      clear -A. unfold cached in A. unfold rest, remove. revert A. generalize (ca_query (ct_ca (j_c j))). induction l as [|x l IH]; intros A; [constructor|]. cbn [filter flat_map] in *. apply nodup_app_inv in A as (A & B & C). destruct (negb _); [|exact (IH B)]. cbn [flat_map]. apply nodup_app_mk; [exact A|exact (IH B)|]. intros p P X. apply (C p P). apply in_flat_map in X as (y & Y & X). apply filter_In in Y as [Y _]. apply in_flat_map. eauto.
    + intros p P. unfold all in P. rewrite EC, <- app_assoc in P. apply in_app_or in P as [P|P]; [|apply KEEP, (ji_in _ J), OLD, P]. exists t0, (phase s0 [] (sn_res s0) SDone). auto.
    + cbn [j1 j_c]. intros t s N D SO p P. unfold all. rewrite EC. rewrite <- app_assoc. apply in_or_app. rewrite ES, (nth_upd _ _ _ _ N0) in N. destruct (Nat.eqb_spec t t0) as [->|NT]; [injection N as <-; left; exact P|]. right.
      pose proof (ji_all _ J t s N D (sole_back pr _ _ _ t s H SO) p P) as X. unfold all in X. apply in_app_or in X as [X|X]; [|apply in_or_app; right; exact X]. apply in_or_app. left.
      apply in_cached in X as (q & l & X & Y). apply in_flat_map. exists (q, l). split; [|exact Y]. unfold rest, remove. apply filter_In. split; [exact X|]. cbn [fst]. apply negb_true_iff, Z.eqb_neq. intros EQ0.
      destruct (si_qry _ I q l X) as (t' & s' & N' & D' & Q' & R'). assert (t' = t) by (apply (same_owner (j_c j) t' s' t s p I N' N); [rewrite R'; exact Y|exact P]). subst t'. assert (s' = s) by congruence. subst s'.
      apply NT. symmetry. apply (SO t0 _ N1). cbn [phase sn_q]. congruence.
Qed.
(** A round of the sweeper. *)
(** Permutations of appended lists, by counting. *)
Ltac count P x := let Q := fresh "Q" in pose proof (proj1 (Permutation_count_occ Nat.eq_dec _ _) P x) as Q; rewrite ?count_occ_app in Q.
Ltac by_count := apply (Permutation_count_occ Nat.eq_dec); let x := fresh "x" in intro x; repeat match goal with P : Permutation _ _ |- _ => count P x; clear P end; rewrite ?concat_app, ?map_app; cbn [concat]; rewrite ?app_nil_r, ?count_occ_app; lia.
Lemma hand_over_all opn taken out : forall queue lost queue' lost', hand_over opn taken out queue lost = (queue', lost') ->
  Permutation (concat queue' ++ lost') (concat out ++ concat queue ++ lost) /\ incl lost lost' /\ (exists more, queue' = queue ++ more) /\ (opn = false -> queue' = queue) /\ (opn = true -> Forall (fun t => t = true) taken -> lost' = lost /\ queue' = queue ++ out).
Proof.
  revert taken. induction out as [|b out IH]; intros taken queue lost queue' lost' H; cbn [hand_over] in H.
  - injection H as <- <-. cbn. split; [apply Permutation_refl|]. split; [apply incl_refl|]. split; [exists []; symmetry; apply app_nil_r|]. split; [reflexivity|]. intros _ _. split; [reflexivity|symmetry; apply app_nil_r].
  - cbv zeta in H. destruct (opn && match taken with [] => true | t :: _ => t end) eqn:E.
    + apply IH in H as (P & L & (more & Q) & O & T). split; [|split; [exact L|split; [|split]]].
      * rewrite concat_app in P. cbn [concat] in P. rewrite app_nil_r in P. by_count.
      * exists (b :: more). rewrite Q, <- app_assoc. reflexivity.
      * intros X. rewrite X in E. discriminate E.
      * intros X F. destruct (T X ltac:(destruct taken; [constructor|cbn [tl]; inversion F; assumption])) as [A B]. split; [exact A|]. rewrite B, <- app_assoc. reflexivity.
    + apply IH in H as (P & L & Q & O & T). split; [|split; [intros x X; apply L, in_or_app; left; exact X|split; [exact Q|split; [exact O|]]]].
      * by_count.
      * intros -> F. exfalso. cbn [andb] in E. destruct taken as [|t tk]; [discriminate E|]. inversion F. congruence.
Qed.
Lemma sweep_all ca d now ca' out : NoDup (map fst (ca_query ca)) -> cleanQueryCacheMap true ca d now (ca_query ca) = (ca', out) ->
  Permutation (flat_map snd (ca_query ca)) (flat_map snd (ca_query ca') ++ concat out) /\ ca_heap ca' = ca_heap ca.
Proof.
  intros ND H. unfold cleanQueryCacheMap in H. destruct (sweep_query true (ca_heap ca) d now (ca_query ca) [] [] []) as [[ex batch] o] eqn:SW. apply sweep_spec in SW as (A1 & A2 & _). cbn [app concat] in A1, A2.
  assert (HOUT : ca' = Caches (ca_heap ca) (ca_seq ca) (ca_msg ca) (fold_left (fun m k => remove Z.eqb k m) ex (ca_query ca)) /\ out = if true && (0 <? zlen batch) then o ++ [batch] else o) by (split; congruence).
  destruct HOUT as [-> EO]. cbn [ca_query ca_heap]. split; [|reflexivity].
  assert (CO : concat out = concat o ++ batch). { rewrite EO. cbn [andb]. destruct (0 <? zlen batch) eqn:E; [rewrite concat_app; cbn [concat]; rewrite app_nil_r; reflexivity|]. destruct batch; [rewrite app_nil_r; reflexivity|]. apply Z.ltb_ge in E. unfold zlen in E. cbn [length] in E. lia. }
  rewrite CO, A2. clear CO EO A2.
  assert (RM : forall ks (m : list (Z * list nat)), fold_left (fun m k => remove Z.eqb k m) ks m = filter (fun e => negb (existsb (Z.eqb (fst e)) ks)) m).
  { clear. induction ks as [|k ks IH]; intros m; cbn [fold_left existsb]; [induction m as [|x m IHm]; [reflexivity|]; cbn [filter negb]; f_equal; exact IHm|]. rewrite IH. unfold remove. clear IH. induction m as [|x m IHm]; [reflexivity|]. cbn [filter]. rewrite (Z.eqb_sym k). destruct (fst x =? k); cbn [negb orb filter]; [exact IHm|]. destruct (negb (existsb (Z.eqb (fst x)) ks)); [f_equal|]; exact IHm. }
  rewrite RM, A1. clear RM A1.
  assert (EX : forall e, In e (ca_query ca) -> existsb (Z.eqb (fst e)) (map fst (filter (fun e => gone (ca_heap ca) d now (snd e)) (ca_query ca))) = gone (ca_heap ca) d now (snd e)).
  { intros [q l] X. destruct (gone (ca_heap ca) d now (snd (q, l))) eqn:G.
    - apply existsb_exists. exists q. cbn [fst]. split; [|apply Z.eqb_refl]. apply in_map_iff. exists (q, l). split; [reflexivity|]. apply filter_In. auto.
    - destruct (existsb _ _) eqn:B; [|reflexivity]. exfalso. apply existsb_exists in B as (q' & B & C). cbn [fst] in C. apply Z.eqb_eq in C. subst q'. apply in_map_iff in B as ([q' l'] & C & B). cbn [fst] in C. subst q'. apply filter_In in B as [B C]. cbn [snd] in *.
      rewrite (nodup_fun _ q l l' ND X B) in G. congruence. }
  revert EX. generalize (map fst (filter (fun e => gone (ca_heap ca) d now (snd e)) (ca_query ca))). intros ks EX. clear ND H. induction (ca_query ca) as [|e m IH]; [constructor|].
  pose proof (EX e (or_introl eq_refl)) as E0. cbn [filter flat_map]. rewrite E0. specialize (IH (fun x X => EX x (or_intror X))). destruct (gone (ca_heap ca) d now (snd e)); cbn [negb flat_map].
  - by_count.
  - by_count.
Qed.
Lemma docs_fst heap l : Forall (fun p => (p < length heap)%nat) l -> map fst (documents heap l) = l.
Proof.
  unfold documents. induction 1 as [|p l H _ IH]; [reflexivity|]. cbn [flat_map]. apply nth_error_Some in H. destruct (nth_error heap p); [|contradiction]. cbn [app map fst]. f_equal. exact IH.
Qed.
Lemma jinv_move j j1 : jinv j -> sinv (j_c j1) -> hinv (j_c j1) -> NoDup (map fst (ca_query (ct_ca (j_c j1)))) -> ct_send (j_c j1) = ct_send (j_c j) -> Permutation (all j) (all j1) -> jinv j1.
Proof.
  intros J A B C D P. split; [exact A|exact B|exact C|apply (Permutation_NoDup P), (ji_nd _ J)| |].
  - intros p X. apply (Permutation_in _ (Permutation_sym P)) in X. destruct (ji_in _ J p X) as (t & s & N & Y). exists t, s. rewrite D. auto.
  - intros t s N E SO p X. rewrite D in N. unfold sole in SO. rewrite D in SO. apply (Permutation_in _ P), (ji_all _ J t s N E SO p X).
Qed.
Lemma all_bound j p : jinv j -> In p (all j) -> (p < length (ca_heap (ct_ca (j_c j))))%nat.
Proof.
  intros J X. destruct (ji_in _ J p X) as (t & s & N & D & P). destruct (ji_h _ J t s N) as [_ F]. rewrite Forall_forall in F. apply F. unfold held. apply in_or_app. left. exact P.
Qed.
Lemma jinv_step pr j e j1 : jinv j -> jstep pr j e = Ok j1 -> jinv j1.
Proof.
  intros J H. destruct e as [e|d now taken|k st|]; cbn [jstep] in H.
  - assert (CASE : (exists h d now, e = CSweepQ h d now /\ j1 = j) \/ (forall h d now, e <> CSweepQ h d now) /\ exists c, cstep pr (j_c j) e = Ok c /\ j1 = JState c (j_open j) (j_queue j) (j_db j) (j_lost j)).
    { destruct e; try (right; split; [discriminate|]; apply bind_ok in H as (c & E & H); injection H as <-; exists c; auto). left. injection H as <-. eauto. }
    destruct CASE as [(h & d & now & _ & ->)|(NS & c & E & ->)]; [exact J|]. apply (jinv_client pr j e c J NS E).
  - destruct (cleanQueryCacheMap true (ct_ca (j_c j)) d now (ca_query (ct_ca (j_c j)))) as [ca out] eqn:CL. destruct (hand_over (j_open j) taken out (j_queue j) (j_lost j)) as [qu lo] eqn:HO. injection H as <-.
    assert (ST : cstep pr (j_c j) (CSweepQ true d now) = Ok (put_ca (j_c j) ca)) by (cbn [cstep]; rewrite CL; reflexivity).
    destruct (sweep_all _ _ _ _ _ (ji_q _ J) CL) as [P _]. destruct (hand_over_all _ _ _ _ _ _ _ HO) as (Q & _).
    apply (jinv_move j); [exact J|exact (sinv_step pr _ _ _ (ji_s _ J) ST)|exact (hinv_step pr _ _ _ (ji_s _ J) (ji_h _ J) ST)| |reflexivity|].
    + cbn [j_c put_ca ct_ca]. unfold cleanQueryCacheMap in CL. destruct (sweep_query _ _ _ _ _ _ _ _) as [[ex ba] o]. injection CL as <- _. cbn [ca_query]. apply nodup_removes. exact (ji_q _ J).
    + unfold all, cached, queued, saved. cbn [j_c put_ca ct_ca j_queue j_db j_lost]. by_count.
  - destruct (nth_error (j_queue j) k) as [b|] eqn:N; [|injection H as <-; exact J]. set (n := match st with None => length b | Some n => n end) in H. injection H as <-.
    pose proof (nth_error_split _ _ N) as (q1 & q2 & EQ & LK). assert (EW : without k (j_queue j) = q1 ++ q2).
    { unfold without. rewrite EQ. subst k. rewrite firstn_app, firstn_all, Nat.sub_diag. cbn [firstn]. rewrite app_nil_r. f_equal. rewrite skipn_app, skipn_all2 by lia. replace (S (length q1) - length q1)%nat with 1%nat by lia. reflexivity. }
    assert (FB : Forall (fun p => (p < length (ca_heap (ct_ca (j_c j))))%nat) (firstn n b)).
    { apply Forall_forall. intros p P. apply (all_bound j p J). unfold all, queued. rewrite EQ, concat_app. cbn [concat]. apply in_or_app. right. apply in_or_app. left. apply in_or_app. right. apply in_or_app. left. rewrite <- (firstn_skipn n b). apply in_or_app. left. exact P. }
    apply (jinv_move j); [exact J|exact (ji_s _ J)|exact (ji_h _ J)|exact (ji_q _ J)|reflexivity|].
    unfold all, cached, queued, saved. cbn [j_c j_queue j_db j_lost]. rewrite EW, EQ, map_app, (docs_fst _ _ FB), !concat_app. cbn [concat]. rewrite <- (firstn_skipn n b) at 1. by_count.
  - injection H as <-. apply (jinv_move j); [exact J|exact (ji_s _ J)|exact (ji_h _ J)|exact (ji_q _ J)|reflexivity|apply Permutation_refl].
Qed.
Lemma jinv_run pr es : forall j j1, jinv j -> jrun pr j es = Ok j1 -> jinv j1.
Proof. induction es as [|e es IH]; intros j j1 J H; cbn [jrun] in H; [injection H as <-; exact J|]. apply bind_ok in H as (j0 & E & H). exact (IH j0 j1 (jinv_step pr j e j0 J E) H). Qed.

(** ** C86 *)
(** Nothing is written twice, whatever the database and the pool do. *)
Theorem C86_once : forall pr sessions es j, jrun pr (jstart sessions) es = Ok j -> NoDup (saved j).
Proof.
  intros pr sessions es j H. pose proof (ji_nd _ (jinv_run pr es _ _ (jinv_start sessions) H)) as ND. unfold all in ND. apply nodup_app_inv in ND as (_ & ND & _). apply nodup_app_inv in ND as (_ & ND & _). apply nodup_app_inv in ND as (ND & _). exact ND.
Qed.
(** Every result of a finished send is in exactly one place: still to be queried, on its way to the
    database, in the database, or lost.  What is in one of these places is the result of a finished send. *)
Theorem C86_one_place : forall pr sessions es j, jrun pr (jstart sessions) es = Ok j ->
  NoDup (cached j ++ queued j ++ saved j ++ j_lost j)
  /\ (forall p, In p (cached j ++ queued j ++ saved j ++ j_lost j) -> produced j p)
  /\ (forall t s p, nth_error (ct_send (j_c j)) t = Some s -> sn_ph s = SDone -> sole (j_c j) t s -> In p (sn_res s) -> In p (cached j) \/ In p (queued j) \/ In p (saved j) \/ In p (j_lost j)).
Proof.
  intros pr sessions es j H. pose proof (jinv_run pr es _ _ (jinv_start sessions) H) as J. split; [exact (ji_nd _ J)|]. split; [exact (ji_in _ J)|].
  intros t s p N D SO P. pose proof (ji_all _ J t s N D SO p P) as X. unfold all in X. rewrite !in_app_iff in X. exact X.
Qed.
(** A document is the result as it stood when a worker wrote its batch; it carries the query id of the
    send, its number and its packet's key. *)
Lemma jdb pr es : forall j j1, jinv j -> jrun pr j es = Ok j1 -> exists more, j_db j1 = j_db j ++ more /\
  forall p r, In (p, r) more -> exists a k st b j0, es = a ++ JJob k st :: b /\ jrun pr j a = Ok j0 /\ (exists batch, nth_error (j_queue j0) k = Some batch /\ In p batch) /\ nth_error (ca_heap (ct_ca (j_c j0))) p = Some r.
Proof.
  induction es as [|e es IH]; intros j j1 J H; cbn [jrun] in H; [injection H as <-; exists []; split; [symmetry; apply app_nil_r|intros p r []]|].
  apply bind_ok in H as (j0 & E & H). destruct (IH j0 j1 (jinv_step pr _ _ _ J E) H) as (more & EM & M).
  assert (STEP : exists m0, j_db j0 = j_db j ++ m0 /\ forall p r, In (p, r) m0 -> exists k st, e = JJob k st /\ (exists batch, nth_error (j_queue j) k = Some batch /\ In p batch) /\ nth_error (ca_heap (ct_ca (j_c j))) p = Some r).
  { destruct e as [e|d now taken|k st|]; cbn [jstep] in E.
    - exists []. rewrite app_nil_r. split; [|intros p r []]. destruct e; try (apply bind_ok in E as (c & E0 & E)); injection E as <-; reflexivity.
    - exists []. rewrite app_nil_r. split; [|intros p r []]. destruct (cleanQueryCacheMap _ _ _ _ _) as [ca out]. destruct (hand_over _ _ _ _ _) as [qu lo]. injection E as <-. reflexivity.
    - destruct (nth_error (j_queue j) k) as [b|] eqn:N; [|exists []; injection E as <-; rewrite app_nil_r; split; [reflexivity|intros p r []]]. cbv zeta in E. injection E as <-. eexists. split; [reflexivity|].
      intros p r X. exists k, st. split; [reflexivity|]. unfold documents in X. apply in_flat_map in X as (p' & X & Y). destruct (nth_error (ca_heap (ct_ca (j_c j))) p') as [r'|] eqn:NR; [|destruct Y]. destruct Y as [Y|[]]. injection Y as -> ->. split; [|exact NR]. exists b. split; [exact N|]. rewrite <- (firstn_skipn (match st with None => length b | Some n => n end) b). apply in_or_app. left. exact X.
    - exists []. injection E as <-. rewrite app_nil_r. split; [reflexivity|intros p r []]. }
  destruct STEP as (m0 & E0 & M0). exists (m0 ++ more). split; [rewrite EM, E0, app_assoc; reflexivity|]. intros p r X. apply in_app_or in X as [X|X].
  - destruct (M0 p r X) as (k & st & -> & B & C). exists [], k, st, es, j. auto.
  - destruct (M p r X) as (a & k & st & b & jj & -> & A & B & C). exists (e :: a), k, st, b, jj. cbn [app jrun]. rewrite E. auto.
Qed.
Theorem C86_document : forall pr sessions es j p r, jrun pr (jstart sessions) es = Ok j -> In (p, r) (j_db j) ->
  (exists a k st b j0, es = a ++ JJob k st :: b /\ jrun pr (jstart sessions) a = Ok j0 /\ nth_error (ca_heap (ct_ca (j_c j0))) p = Some r)
  /\ exists t s, nth_error (ct_send (j_c j)) t = Some s /\ sn_ph s = SDone /\ In p (sn_res s) /\ rt_qid r = sn_q s /\ nth_error (recs (ct_log (j_c j))) p = Some (t, rt_phone r, rt_seq r).
Proof.
  intros pr sessions es j p r H X. destruct (jdb pr es _ _ (jinv_start sessions) H) as (more & EM & M). cbn [jstart j_db app] in EM. rewrite EM in X. destruct (M p r X) as (a & k & st & b & j0 & E & A & (batch & B1 & B2) & C).
  split; [exists a, k, st, b, j0; auto|]. pose proof (jinv_run pr a _ _ (jinv_start sessions) A) as J0.
  destruct (ji_in _ J0 p) as (t & s & N & D & P). { unfold all, queued. apply in_or_app. right. apply in_or_app. left. apply in_concat. exists batch. split; [exact (nth_error_In _ _ B1)|exact B2]. }
  exists t, s. assert (STAY : forall es0 c c1, crun pr c es0 = Ok c1 -> sinv c -> nth_error (ct_send c) t = Some s -> nth_error (ct_send c1) t = Some s).
  { induction es0 as [|e0 es0 IH]; intros c c1 R I0 N0; cbn [crun] in R; [injection R as <-; exact N0|]. apply bind_ok in R as (c2 & R1 & R2). apply (IH c2 c1 R2 (sinv_step pr _ _ _ I0 R1)). destruct (sends_keep pr _ _ _ t s R1 N0) as (s1 & N1 & _ & E1). rewrite (E1 D) in N1. exact N1. }
  assert (R2 : crun pr (j_c j0) (flat_map cev (JJob k st :: b)) = Ok (j_c j)). { apply jrun_client. subst es. rewrite jrun_app, A in H. exact H. }
  split; [exact (STAY _ _ _ R2 (ji_s _ J0) N)|]. split; [exact D|]. split; [exact P|]. split; [exact (si_qid _ (ji_s _ J0) t s p r N D P C)|].
  pose proof (jinv_run pr es _ _ (jinv_start sessions) H) as J. destruct (si_snd _ (ji_s _ J) t s (STAY _ _ _ R2 (ji_s _ J0) N)) as [O _]. destruct (O p P) as (ph & key & RC).
  destruct (heap_key (j_c j0) p r (ji_s _ J0) C) as (t0 & K0).
  assert (GROW : forall es0 c c1, sinv c -> crun pr c es0 = Ok c1 -> forall x, nth_error (recs (ct_log c)) p = Some x -> nth_error (recs (ct_log c1)) p = Some x).
  { induction es0 as [|e0 es0 IH]; intros c c1 I0 R x Y; cbn [crun] in R; [injection R as <-; exact Y|]. apply bind_ok in R as (c2 & R1 & R3). apply (IH c2 c1 (sinv_step pr _ _ _ I0 R1) R3 x). assert (EL : exists l, ct_log c2 = ct_log c ++ l) by (destruct (step_kinds pr _ _ _ I0 R1) as [l E0 _ _ _|? ? ? ? ? _ E0 _ _|? ? ? ? ? ? _ _ E0 _|? ? _ E0 _]; [eauto|eauto|eauto|exists []; rewrite app_nil_r; exact E0]).
    destruct EL as (l & ->). rewrite recs_app, nth_error_app1; [exact Y|apply nth_error_Some; congruence]. }
  rewrite (GROW _ _ _ (ji_s _ J0) R2 _ K0) in *. congruence.
Qed.
(** What is stored stays as it is: documents are only added, never changed or removed. *)
Theorem C86_kept : forall pr sessions es es' j j', jrun pr (jstart sessions) es = Ok j -> jrun pr j es' = Ok j' -> exists more, j_db j' = j_db j ++ more.
Proof. intros pr sessions es es' j j' H H'. destruct (jdb pr es' _ _ (jinv_run pr es _ _ (jinv_start sessions) H) H') as (more & E & _). eauto. Qed.

(** With a pool that takes every batch, a database that stores every batch and no shutdown, nothing is
    lost, and an expired send is in the database after the sweep and the workers' writes. *)
Definition smooth (e : jevent) : Prop := match e with JClient _ => True | JSweep _ _ taken => Forall (fun t => t = true) taken | JJob _ stored => stored = None | JShut => False end.
Lemma smooth_run pr es : forall j j1, jrun pr j es = Ok j1 -> Forall smooth es -> j_open j = true -> j_open j1 = true /\ j_lost j1 = j_lost j.
Proof.
  induction es as [|e es IH]; intros j j1 H F O; cbn [jrun] in H; [injection H as <-; auto|]. apply bind_ok in H as (j0 & E & H). inversion F as [|? ? S F']; subst.
  assert (X : j_open j0 = true /\ j_lost j0 = j_lost j).
  { destruct e as [e|d now taken|k st|]; cbn [jstep smooth] in E, S; [| | |destruct S].
    - destruct e; try (apply bind_ok in E as (c & E0 & E)); injection E as <-; auto.
    - destruct (cleanQueryCacheMap _ _ _ _ _) as [ca out]. destruct (hand_over _ _ _ _ _) as [qu lo] eqn:HO. apply hand_over_all in HO as (_ & _ & _ & _ & T). destruct (T O S) as [A B]. injection E as <-. auto.
    - subst st. destruct (nth_error (j_queue j) k) as [b|]; [|injection E as <-; auto]. cbv zeta in E. injection E as <-. cbn [j_open j_lost]. rewrite skipn_all, app_nil_r. auto. }
  destruct X as [A B]. destruct (IH j0 j1 H F' A) as [C D]. split; [exact C|congruence].
Qed.
Lemma drain_queue pr n : forall j, jinv j -> length (j_queue j) = n -> exists j1, jrun pr j (repeat (JJob 0 None) n) = Ok j1 /\ j_queue j1 = [] /\ j_c j1 = j_c j /\ j_db j1 = j_db j ++ documents (ca_heap (ct_ca (j_c j))) (queued j).
Proof.
  induction n as [|n IH]; intros j J L; cbn [repeat jrun].
  - exists j. destruct (j_queue j) eqn:Q; [|discriminate L]. unfold queued. rewrite Q. cbn. rewrite app_nil_r. auto.
  - destruct (j_queue j) as [|b q] eqn:Q; [discriminate L|]. assert (E : jstep pr j (JJob 0 None) = Ok (JState (j_c j) (j_open j) q (j_db j ++ documents (ca_heap (ct_ca (j_c j))) b) (j_lost j ++ []))) by (cbn [jstep]; rewrite Q; cbn [nth_error]; rewrite firstn_all, skipn_all; reflexivity).
    rewrite E. cbn [bind]. destruct (IH _ (jinv_step pr _ _ _ J E) ltac:(cbn [j_queue]; cbn in L; lia)) as (j1 & R & A & B & C). exists j1. split; [exact R|]. split; [exact A|]. split; [exact B|]. rewrite C. cbn [j_db j_c]. unfold queued. cbn [j_queue]. rewrite Q. cbn [concat]. unfold documents. rewrite flat_map_app, app_assoc. reflexivity.
Qed.
Theorem C86_saved_partial : forall pr sessions es j t s d now, jrun pr (jstart sessions) es = Ok j -> Forall smooth es ->
  nth_error (ct_send (j_c j)) t = Some s -> sn_ph s = SDone -> sole (j_c j) t s -> expired (ca_heap (ct_ca (j_c j))) d now (sn_res s) ->
  exists n j', jrun pr j (JSweep d now [] :: repeat (JJob 0 None) n) = Ok j' /\ j_lost j' = [] /\
    (forall p, In p (sn_res s) -> exists r, In (p, r) (j_db j') /\ (~ In p (saved j) -> nth_error (ca_heap (ct_ca (j_c j))) p = Some r))
    /\ (forall l, ~ In (sn_q s, l) (ca_query (ct_ca (j_c j')))) .
Proof.
  intros pr sessions es j t s d now H F N D SO X. pose proof (jinv_run pr es _ _ (jinv_start sessions) H) as J. destruct (smooth_run pr es _ _ H F eq_refl) as [O LO]. cbn [jstart j_lost] in LO.
  destruct (cleanQueryCacheMap true (ct_ca (j_c j)) d now (ca_query (ct_ca (j_c j)))) as [ca out] eqn:CL. destruct (hand_over (j_open j) [] out (j_queue j) (j_lost j)) as [qu lo] eqn:HO.
  pose proof HO as HO2. apply hand_over_all in HO2 as (_ & _ & _ & _ & T). destruct (T O ltac:(constructor)) as [A B]. subst lo qu.
  set (j0 := JState (put_ca (j_c j) ca) (j_open j) (j_queue j ++ out) (j_db j) (j_lost j)).
  assert (E : jstep pr j (JSweep d now []) = Ok j0) by (cbn [jstep]; rewrite CL, HO; reflexivity).
  pose proof (jinv_step pr _ _ _ J E) as J0. destruct (drain_queue pr _ j0 J0 eq_refl) as (j1 & R & Q1 & C1 & DB).
  exists (length (j_queue j0)), j1. split; [cbn [jrun]; rewrite E; exact R|]. assert (L1 : j_lost j1 = []).
  { destruct (smooth_run pr _ _ _ R) as [_ L]; [apply Forall_forall; intros e I; apply repeat_spec in I; subst e; reflexivity|exact O|]. rewrite L. exact LO. }
  split; [exact L1|].
  destruct (C60_sweep true _ _ _ _ _ _ (ji_q _ J) (Permutation_refl _) CL) as (S1 & (S2 & _) & _ & S4). destruct (S4 eq_refl) as ((gone_sends & G1 & _ & G3) & _).
  assert (NOQ : forall l, ~ In (sn_q s, l) (ca_query ca)).
  { intros l I. apply S1 in I as [I NX]. destruct (si_qry _ (ji_s _ J) _ _ I) as (t' & s' & N' & D' & Q' & R'). assert (t' = t) by (apply (SO t' s' N' Q')). subst t'. assert (s' = s) by congruence. subst s'. rewrite <- R' in NX. contradiction. }
  split.
  - intros p P. assert (BND : (p < length (ca_heap (ct_ca (j_c j))))%nat) by (apply (all_bound j p J), (ji_all _ J t s N D SO p P)).
    destruct (C86_one_place pr sessions es j H) as (_ & _ & W). rewrite DB. cbn [j0 j_db j_c put_ca ct_ca]. rewrite S2.
    assert (QD : In p (queued j0) -> exists r, In (p, r) (j_db j ++ documents (ca_heap (ct_ca (j_c j))) (queued j0)) /\ (~ In p (saved j) -> nth_error (ca_heap (ct_ca (j_c j))) p = Some r)).
    { intros Y. apply nth_error_Some in BND. destruct (nth_error (ca_heap (ct_ca (j_c j))) p) as [r|] eqn:NR; [|contradiction]. exists r. split; [|auto]. apply in_or_app. right. unfold documents. apply in_flat_map. exists p. split; [exact Y|]. rewrite NR. left. reflexivity. }
    destruct (W t s p N D SO P) as [Y|[Y|[Y|Y]]].
    + apply QD. unfold queued. cbn [j0 j_queue]. rewrite concat_app. apply in_or_app. right. apply (Permutation_in _ (Permutation_sym G3)). apply in_cached in Y as (q & l & Y & Z0). apply in_flat_map. exists (q, l). split; [|exact Z0]. apply G1. split; [exact Y|].
      destruct (si_qry _ (ji_s _ J) _ _ Y) as (t' & s' & N' & D' & Q' & R'). assert (t' = t) by (apply (same_owner (j_c j) t' s' t s p (ji_s _ J) N' N); [rewrite R'; exact Z0|exact P]). subst t'. assert (s' = s) by congruence. subst s'. rewrite <- R'. exact X.
    + apply QD. unfold queued. cbn [j0 j_queue]. rewrite concat_app. apply in_or_app. left. exact Y.
    + unfold saved in Y. apply in_map_iff in Y as ([p' r] & E1 & Y). cbn [fst] in E1. subst p'. exists r. split; [apply in_or_app; left; exact Y|]. intros NS. exfalso. apply NS. unfold saved. apply in_map_iff. exists (p, r). auto.
    + rewrite LO in Y. destruct Y.
  - rewrite C1. exact NOQ.
Qed.
(** Refuted: what the pool or the database did not take is never written later. *)
Theorem C86_refuted_lost : forall pr sessions es es' j j' p, jrun pr (jstart sessions) es = Ok j -> In p (j_lost j) -> jrun pr j es' = Ok j' -> ~ In p (saved j') /\ In p (j_lost j').
Proof.
  intros pr sessions es es' j j' p H L H'. pose proof (jinv_run pr es _ _ (jinv_start sessions) H) as J. pose proof (jinv_run pr es' _ _ J H') as J'.
  assert (LL : In p (j_lost j')).
  { clear J J' H. revert j L H'. induction es' as [|e es' IH]; intros j L H'; cbn [jrun] in H'; [injection H' as <-; exact L|]. apply bind_ok in H' as (j0 & E & H'). apply (IH j0); [|exact H'].
    destruct e as [e|d now taken|k st|]; cbn [jstep] in E.
    - destruct e; try (apply bind_ok in E as (c & E0 & E)); injection E as <-; exact L.
    - destruct (cleanQueryCacheMap _ _ _ _ _) as [ca out]. destruct (hand_over _ _ _ _ _) as [qu lo] eqn:HO. apply hand_over_all in HO as (_ & I & _). injection E as <-. apply I, L.
    - destruct (nth_error (j_queue j) k) as [b|]; cbv zeta in E; injection E as <-; [apply in_or_app; left|]; exact L.
    - injection E as <-. exact L. }
  split; [|exact LL]. intros X. pose proof (ji_nd _ J') as ND. unfold all in ND. apply nodup_app_inv in ND as (_ & ND & _). apply nodup_app_inv in ND as (_ & ND & _). apply nodup_app_inv in ND as (_ & _ & ND). exact (ND p X LL).
Qed.
(** Refuted: of a batch on which the database fails, nothing from that place on is ever stored. *)
Theorem C86_refuted_insert : forall pr sessions es es' j j' k n b p, jrun pr (jstart sessions) es = Ok j -> nth_error (j_queue j) k = Some b -> In p (skipn n b) ->
  jrun pr j (JJob k (Some n) :: es') = Ok j' -> ~ In p (saved j').
Proof.
  intros pr sessions es es' j j' k n b p H N P H'. cbn [jrun jstep] in H'. rewrite N in H'. cbn [bind] in H'.
  refine (proj1 (C86_refuted_lost pr sessions (es ++ [JJob k (Some n)]) es' _ j' p _ _ H')); [rewrite jrun_app, H; cbn [bind jrun jstep]; rewrite N; reflexivity|]. cbn [j_lost]. apply in_or_app. right. exact P.
Qed.
(** The pool refuses jobs exactly from the shutdown on. *)
Lemma open_is pr es : forall j j1, jrun pr j es = Ok j1 -> (j_open j1 = false <-> j_open j = false \/ In JShut es).
Proof.
  induction es as [|e es IH]; intros j j1 H; cbn [jrun] in H; [injection H as <-; cbn [In]; tauto|]. apply bind_ok in H as (j0 & E & H). rewrite (IH j0 j1 H). clear IH H. cbn [In].
  destruct e as [e|d now taken|k st|]; cbn [jstep] in E.
  - assert (X : j_open j0 = j_open j) by (destruct e; try (apply bind_ok in E as (c & E0 & E)); injection E as <-; reflexivity). rewrite X. intuition discriminate.
  - destruct (cleanQueryCacheMap _ _ _ _ _) as [ca out]. destruct (hand_over _ _ _ _ _) as [qu lo]. injection E as <-. cbn [j_open]. intuition discriminate.
  - destruct (nth_error (j_queue j) k) as [b|]; cbv zeta in E; injection E as <-; cbn [j_open]; intuition discriminate.
  - injection E as <-. cbn [j_open]. tauto.
Qed.
(** Refuted: a batch that the pool does not take is never stored. *)
Theorem C86_refuted_refused : forall pr sessions es es' j j' d now taken q l p, jrun pr (jstart sessions) es = Ok j -> In (q, l) (ca_query (ct_ca (j_c j))) -> In p l -> expired (ca_heap (ct_ca (j_c j))) d now l ->
  (In JShut es \/ (forall i, nth i taken false = false) /\ (length (cached j) <= length taken)%nat) -> jrun pr j (JSweep d now taken :: es') = Ok j' -> ~ In p (saved j').
Proof.
  intros pr sessions es es' j j' d now taken q l p H I P X W0 H'. assert (W : j_open j = false \/ (forall i, nth i taken false = false) /\ (length (cached j) <= length taken)%nat) by (destruct W0 as [W0|W0]; [left; apply (open_is pr es _ _ H); right; exact W0|right; exact W0]). pose proof (jinv_run pr es _ _ (jinv_start sessions) H) as J. cbn [jrun] in H'. apply bind_ok in H' as (j0 & E & H'). pose proof (jinv_step pr _ _ _ J E) as J0.
  refine (proj1 (C86_refuted_lost pr sessions (es ++ [JSweep d now taken]) es' j0 j' p _ _ H')); [rewrite jrun_app, H; cbn [bind jrun]; rewrite E; reflexivity|].
  cbn [jstep] in E. destruct (cleanQueryCacheMap true (ct_ca (j_c j)) d now (ca_query (ct_ca (j_c j)))) as [ca out] eqn:CL. destruct (hand_over (j_open j) taken out (j_queue j) (j_lost j)) as [qu lo] eqn:HO. injection E as <-. cbn [j_lost].
  destruct (C60_sweep true _ _ _ _ _ _ (ji_q _ J) (Permutation_refl _) CL) as (_ & _ & _ & S4). destruct (S4 eq_refl) as ((gone_sends & G1 & _ & G3) & NE & _).
  assert (PO : In p (concat out)) by (apply (Permutation_in _ (Permutation_sym G3)); apply in_flat_map; exists (q, l); split; [apply G1; auto|exact P]).
  assert (LEN : (length out <= length (cached j))%nat).
  { destruct (sweep_all _ _ _ _ _ (ji_q _ J) CL) as [PM _]. apply Permutation_length in PM. rewrite app_length in PM. unfold cached. assert (length out <= length (concat out))%nat; [|lia]. clear -NE. induction NE as [|b out NB _ IH]; [cbn; lia|]. cbn [concat length]. rewrite app_length. destruct b; [contradiction|cbn [length]; lia]. }
  assert (ALL : forall out taken queue lost, (j_open j = false \/ (forall i, nth i taken false = false) /\ (length out <= length taken)%nat) -> snd (hand_over (j_open j) taken out queue lost) = lost ++ concat out).
  { clear. induction out as [|b out IH]; intros taken queue lost W; cbn [hand_over]; [rewrite app_nil_r; reflexivity|]. cbv zeta.
    assert (OFF : j_open j && match taken with [] => true | t :: _ => t end = false) by (destruct W as [->|[W L]]; [reflexivity|]; destruct taken as [|t taken]; [cbn in L; lia|]; specialize (W 0%nat); cbn in W; rewrite W; apply andb_false_r).
    rewrite OFF, IH; [cbn [concat]; rewrite app_assoc; reflexivity|]. destruct W as [W|[W L]]; [left; exact W|right]. split; [intros i; destruct taken; [destruct i; reflexivity|exact (W (S i))]|]. destruct taken; cbn in *; lia. }
  assert (EL : lo = j_lost j ++ concat out). { rewrite <- (ALL out taken (j_queue j) (j_lost j)); [rewrite HO; reflexivity|]. destruct W as [W|[W L]]; [left; exact W|right; split; [exact W|lia]]. }
  rewrite EL. apply in_or_app. right. exact PO.
Qed.
(** Refuted: once the program is shutting down, nothing that is still in the query cache, and no later
    send, ever gets to the database: only the batches already with the workers do. *)
Theorem C86_refuted_shutdown : forall pr sessions es es' j j' p, jrun pr (jstart sessions) es = Ok j -> In JShut es -> jrun pr j es' = Ok j' ->
  In p (saved j') -> In p (saved j) \/ In p (queued j).
Proof.
  intros pr sessions es es' j j' p H O0 H'. assert (O : j_open j = false) by (apply (open_is pr es _ _ H); right; exact O0). clear O0. pose proof (jinv_run pr es _ _ (jinv_start sessions) H) as J. clear H. revert j J O H'. induction es' as [|e es' IH]; intros j J O H' X; cbn [jrun] in H'; [injection H' as <-; auto|].
  apply bind_ok in H' as (j0 & E & H'). pose proof (jinv_step pr _ _ _ J E) as J0.
  assert (K : j_open j0 = false /\ (In p (saved j0) \/ In p (queued j0) -> In p (saved j) \/ In p (queued j))).
  { destruct e as [e|d now taken|k st|]; cbn [jstep] in E.
    - destruct e; try (apply bind_ok in E as (c & E0 & E)); injection E as <-; auto.
    - destruct (cleanQueryCacheMap _ _ _ _ _) as [ca out]. destruct (hand_over _ _ _ _ _) as [qu lo] eqn:HO. apply hand_over_all in HO as (_ & _ & _ & T & _). rewrite (T O) in E. injection E as <-. auto.
    - destruct (nth_error (j_queue j) k) as [b|] eqn:N; cbv zeta in E; injection E as <-; [|auto]. split; [exact O|]. unfold saved, queued. cbn [j_db j_queue].
      assert (SUB : forall y, In y b -> In y (concat (j_queue j))) by (intros y Y; apply in_concat; exists b; split; [exact (nth_error_In _ _ N)|exact Y]).
      intros [Y|Y].
      + rewrite map_app in Y. apply in_app_or in Y as [Y|Y]; [auto|]. right. apply SUB. apply in_map_iff in Y as ([p' r] & E1 & Y). cbn [fst] in E1. subst p'. unfold documents in Y. apply in_flat_map in Y as (p' & Y & Z0). destruct (nth_error (ca_heap _) p'); [|destruct Z0]. destruct Z0 as [Z0|[]]. injection Z0 as -> _. rewrite <- (firstn_skipn (match st with None => length b | Some n => n end) b). apply in_or_app. left. exact Y.
      + right. apply in_concat in Y as (b' & Y & Z0). apply in_concat. exists b'. split; [|exact Z0]. unfold without in Y. apply in_app_or in Y as [Y|Y]; [rewrite <- (firstn_skipn k)|rewrite <- (firstn_skipn (S k))]; apply in_or_app; [left|right]; exact Y.
    - injection E as <-. auto. }
  destruct K as [O0 K]. apply K. exact (IH j0 J0 O0 H' X).
Qed.
(** A send to three numbers, one without a session: two results; swept, the first stored, the database
    failing on the second; the answer for the first comes after it was stored and does not show there. *)
Definition jshow (p : FrameModel.proto) (es : list jevent) : option (list nat * list nat * list (nat * Z) * list nat) :=
  match jrun pr_demo (jstart [sess_demo p]) es with Ok j => Some (cached j, queued j, map (fun x => (fst x, rt_result (snd x))) (j_db j), j_lost j) | _ => None end.
Definition jsend : list jevent := map JClient [CBegin 77 [72;105] [] [[49;51;48]; [49;52]; [49;53]]; CPick 0 (Some 0%nat) d_demo 5; CWrite 0 true 5; CRecord 0 6; CPick 0 None d_demo 7; CPick 0 (Some 0%nat) d_demo 7; CWrite 0 true 7; CRecord 0 8; CDone 0].
Example C86_case :
  jshow FrameModel.P_SGIP jsend = Some ([0; 1]%nat, [], [], [])
  /\ jshow FrameModel.P_SGIP (jsend ++ [JSweep 60 66 []]) = Some ([0; 1]%nat, [], [], [])
  /\ jshow FrameModel.P_SGIP (jsend ++ [JSweep 60 67 []]) = Some ([], [0; 1]%nat, [], [])
  /\ jshow FrameModel.P_SGIP (jsend ++ [JSweep 60 67 []; JJob 0 None]) = Some ([], [], [(0%nat, 0); (1%nat, 0)], [])
  /\ jshow FrameModel.P_SGIP (jsend ++ [JSweep 60 67 []; JJob 0 (Some 1%nat); JClient (CGot 0 2147483651 3001 ([0;0;0;5] ++ [0;0;0;9] ++ [3] ++ repeat 0 8) (GOrc false 9 [])); JJob 0 None]) = Some ([], [], [(0%nat, 0)], [1%nat])
  /\ jshow FrameModel.P_SGIP (jsend ++ [JSweep 60 67 [false]; JJob 0 None]) = Some ([], [], [], [0; 1]%nat)
  /\ jshow FrameModel.P_SGIP (jsend ++ [JShut; JSweep 60 67 []; JJob 0 None]) = Some ([], [], [], [0; 1]%nat).
Proof. repeat match goal with |- _ /\ _ => split end; vm_compute; reflexivity. Qed.
Print Assumptions C86_once.
Print Assumptions C86_one_place.
Print Assumptions C86_document.
Print Assumptions C86_kept.
Print Assumptions C86_saved_partial.
Print Assumptions C86_refuted_lost.
Print Assumptions C86_refuted_insert.
Print Assumptions C86_refuted_refused.
Print Assumptions C86_refuted_shutdown.
