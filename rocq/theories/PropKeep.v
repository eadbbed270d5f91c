(** C122: how long the results of a send can be asked for (msc_client/session_factory.go:163-222). *)
From Coq Require Import ZArith List Lia Bool.
From Verif Require Import Base FrameModel ServerModel ClientModel ClientProofs PropClient.
Import ListNotations. Open Scope Z_scope.

(** ** Model *)
(** time.NewTicker: panics for an interval that is not positive; the k-th tick comes k intervals after the
    start. *)
Definition NewTicker (start d : Z) : res (nat -> Z) := if d <=? 0 then Panic else Ok (fun k => start + Z.of_nat k * d).
(** session_factory.go:174-182: one turn of the loop after a tick at [now].  Simplified: the three sweeps
    read the clock at the tick. *)
Definition sweep_round (h : bool) (d now : Z) : list cevent := [CSweepQ h d now; CSweepS d now; CSweepM d now].
(** session_factory.go:164-185 StartCacheExpireTicker and 194-198 (the cache time): [check], [expire] are the
    settings in nanoseconds, [start] the clock when the goroutine begins; what it has done after [n] ticks.
    A panic in this goroutine ends the client. *)
Definition StartCacheExpireTicker (h : bool) (check expire start : Z) (n : nat) : res (list cevent) :=
  let d := if check =? 0 then 1000000000 else check in
  ticker <- NewTicker start d ;;
  Ok (flat_map (fun k => sweep_round h (if expire =? 0 then 60 * 1000000000 else expire) (ticker k)) (seq 1 n)).

(** ** Specification *)
(** What identifies a packet in an answer to a query: the number, the key and the time it was sent. *)
Definition packet_of (r : result) : bytes * Z * Z := (rt_phone r, rt_seq r, rt_send r).
(** No two sends have this id (C13: ids of one generator are different). *)
Definition lone (q : Z) (c : cstate) : Prop :=
  forall t t' s s', nth_error (ct_send c) t = Some s -> nth_error (ct_send c) t' = Some s' -> sn_q s = q -> sn_q s' = q -> t = t'.
(** A time setting: 0 or none stands for the default. *)
Definition set_or (x def : Z) : Z := if x =? 0 then def else x.
Definition second : Z := 10 ^ 9.
Definition sweeping (e : cevent) : bool := match e with CSweepQ _ _ _ | CSweepS _ _ | CSweepM _ _ => true | _ => false end.

(** ** Proofs *)
Lemma lone_back pr q es : forall c c1, crun pr c es = Ok c1 -> lone q c1 -> lone q c.
Proof.
  induction es as [|e es IH]; intros c c1 H L; cbn [crun] in H; [injection H as <-; exact L|]. apply bind_ok in H as (c0 & E & H). specialize (IH _ _ H L).
  intros t t' s s' N N' Q Q'. destruct (sends_keep pr c e c0 t s E N) as (x & X & XQ & _). destruct (sends_keep pr c e c0 t' s' E N') as (y & Y & YQ & _).
  apply (IH t t' x y X Y); congruence.
Qed.
Lemma load_gone q l heap d now : forall m, In (q, l) m -> gone heap d now l = true -> load Z.eqb q (fold_left (fun m k => remove Z.eqb k m) (map fst (filter (fun e => gone heap d now (snd e)) m)) m) = None.
Proof.
  assert (G : forall ks (m : list (Z * list nat)), In q ks \/ load Z.eqb q m = None -> load Z.eqb q (fold_left (fun m k => remove Z.eqb k m) ks m) = None).
  { induction ks as [|k ks IH]; intros m [X|X]; cbn [fold_left]; [destruct X|exact X| |].
    - apply IH. destruct (Z.eq_dec k q) as [->|N]; [right|left; destruct X; [contradiction|exact H]].
      clear. induction m as [|[a b] m IH]; [reflexivity|]. unfold remove in *. cbn [filter fst]. destruct (q =? a) eqn:E; cbn [negb]; [exact IH|]. cbn [load]. rewrite E. exact IH.
    - apply IH. right. destruct (Z.eq_dec q k) as [->|N]; [|rewrite (load_remove_other _ Z.eqb_eq); assumption].
      clear - X. induction m as [|[a b] m IH]; [reflexivity|]. cbn [load] in X. unfold remove in *. cbn [filter fst]. destruct (k =? a) eqn:E; cbn [negb]; [discriminate X|]. cbn [load]. rewrite E. apply IH. exact X. }
  intros m I X. apply G. left. apply in_map_iff. exists (q, l). split; [reflexivity|]. apply filter_In. split; [exact I|exact X].
Qed.
Lemma send_same pr c e c1 : sinv c -> cstep pr c e = Ok c1 -> forall p r, nth_error (ca_heap (ct_ca c)) p = Some r -> exists r1, nth_error (ca_heap (ct_ca c1)) p = Some r1 /\ packet_of r1 = packet_of r.
Proof.
  intros I H p r N. destruct (heap_send pr c e c1 p r I H N) as (r1 & N1 & E). exists r1. split; [exact N1|].
  assert (V : view_of r1 = view_of r).
  { pose proof (sinv_step pr c e c1 I H) as I1. apply (map_nth_error view_of) in N, N1. rewrite (si_heap _ I) in N. rewrite (si_heap _ I1) in N1.
    assert (X : exists l, ct_log c1 = ct_log c ++ l).
    { destruct (step_kinds pr c e c1 I H) as [l EL _ _ _|t pp phone b now _ EL _ _|i seq body o rr out _ _ EL _|d now _ EL _]; eauto. exists []. rewrite app_nil_r. exact EL. }
    destruct X as [l X]. rewrite X, recs_app, map_app, nth_error_app1 in N1; [congruence|]. apply nth_error_Some. congruence. }
  unfold packet_of. injection V as -> ->. rewrite E. reflexivity.
Qed.
Lemma deref_same h h1 l : (forall p r, nth_error h p = Some r -> exists r1, nth_error h1 p = Some r1 /\ packet_of r1 = packet_of r) ->
  (forall p, In p l -> nth_error h p <> None) -> map packet_of (deref h1 l) = map packet_of (deref h l).
Proof.
  intros K. induction l as [|p l IH]; intros N; [reflexivity|]. cbn [deref]. destruct (nth_error h p) as [r|] eqn:E; [|exfalso; apply (N p); [left; reflexivity|exact E]].
  destruct (K p r E) as (r1 & -> & X). cbn [map]. rewrite X, IH; [reflexivity|]. intros p' P. apply N. right. exact P.
Qed.
Lemma res_there c t s p : sinv c -> nth_error (ct_send c) t = Some s -> In p (sn_res s) -> nth_error (ca_heap (ct_ca c)) p <> None.
Proof.
  intros I N P. destruct (si_snd _ I t s N) as [O _]. destruct (O p P) as (ph & k & RC). intros X.
  apply nth_error_None in X. rewrite <- (map_length view_of), (si_heap _ I), map_length in X. apply nth_error_None in X. congruence.
Qed.
(** What holds of a found id from then on. *)
Definition kept (q : Z) (p : nat) (l : list nat) (t0 : Z) (pk : list (bytes * Z * Z)) (late : Prop) (c : cstate) : Prop :=
  exists t s, nth_error (ct_send c) t = Some s /\ sn_ph s = SDone /\ sn_q s = q /\ sn_res s = p :: l
    /\ (exists r, nth_error (ca_heap (ct_ca c)) p = Some r /\ rt_send r = t0) /\ map packet_of (deref (ca_heap (ct_ca c)) (p :: l)) = pk
    /\ (~ late -> load Z.eqb q (ca_query (ct_ca c)) = Some (p :: l)) /\ (late -> load Z.eqb q (ca_query (ct_ca c)) = None).
Lemma kept_step pr q p l t0 pk (late : Prop) c e c1 : late \/ ~ late -> sinv c -> cstep pr c e = Ok c1 -> lone q c1 -> kept q p l t0 pk late c ->
  kept q p l t0 pk (late \/ exists h d now, e = CSweepQ h d now /\ t0 + d < now) c1.
Proof.
  intros DL I H L (t & s & N & D & Q & R & (r & NR & TR) & PK & KN & KL).
  destruct (sends_keep pr c e c1 t s H N) as (s1 & N1 & _ & E1). rewrite (E1 D) in N1. clear s1 E1.
  exists t, s. split; [exact N1|]. split; [exact D|]. split; [exact Q|]. split; [exact R|]. split; [|split].
  - destruct (heap_send pr c e c1 p r I H NR) as (r1 & X & Y). exists r1. split; [exact X|congruence].
  - rewrite <- PK. apply deref_same; [exact (send_same pr c e c1 I H)|]. intros p' P. apply (res_there c t s p' I N). rewrite R. exact P.
  - assert (SW : (exists h d now, e = CSweepQ h d now) \/ ~ exists h d now, e = CSweepQ h d now)
      by (destruct e; first [left; eauto; fail|right; intros (h' & d' & n' & X); discriminate X]).
    destruct SW as [(h & d & now & ->)|NE].
    + cbn [cstep] in H. injection H as <-. cbn [put_ca ct_ca]. unfold cleanQueryCacheMap.
      destruct (sweep_query h (ca_heap (ct_ca c)) d now (ca_query (ct_ca c)) [] [] []) as [[ex ba] out] eqn:SW. cbn [fst ca_query].
      apply sweep_spec in SW as (A1 & _). cbn [app] in A1. subst ex. split.
      * intros X. assert (NL : ~ late) by tauto. specialize (KN NL). rewrite (load_removes _ Z.eqb_eq); [exact KN|]. intros Y. apply in_map_iff in Y as ([q' l'] & E & Y). cbn [fst] in E. subst q'.
        apply filter_In in Y as [Y G]. cbn [snd] in G. destruct (si_qry _ I _ _ Y) as (t' & s' & N' & D' & Q' & R').
        assert (t' = t) by (apply (lone_back pr q [CSweepQ h d now] c _ eq_refl L t' t s' s); assumption). subst t'. rewrite N in N'. injection N' as <-. rewrite R in R'. subst l'.
        unfold gone, old in G. rewrite NR in G. apply Z.ltb_lt in G. apply X. right. exists h, d, now. split; [reflexivity|lia].
      * intros X. destruct DL as [Y|Y].
        -- specialize (KL Y). destruct (load Z.eqb q (fold_left _ _ _)) as [v|] eqn:E; [|reflexivity]. exfalso. apply load_in in E as (k & E & IN). apply removes_incl in IN. apply Z.eqb_eq in E. subst k.
           exact (in_load Z.eqb q v _ (Z.eqb_refl q) IN KL).
        -- destruct X as [X|(h' & d' & n' & X & LT)]; [contradiction|]. injection X as <- <- <-. specialize (KN Y). apply load_in in KN as (k & E & IN). apply Z.eqb_eq in E. subst k.
           apply (load_gone q (p :: l)); [exact IN|]. unfold gone, old. rewrite NR. apply Z.ltb_lt. lia.
    + assert (E : load Z.eqb q (ca_query (ct_ca c1)) = load Z.eqb q (ca_query (ct_ca c))).
      { destruct (qkinds pr c e c1 I H) as [EQ _|t1 s1 -> N2 ES EQ|h d now -> _ _]; [rewrite EQ; reflexivity| |exfalso; apply NE; eauto].
        destruct (Z.eq_dec q (sn_q s1)) as [X|X]; [|rewrite EQ; apply (load_store_other _ Z.eqb_eq); exact X].
        assert (t1 = t) by (apply (lone_back pr q [CDone t1] c c1 ltac:(cbn [crun]; rewrite H; reflexivity) L t1 t s1 s); auto). subst t1. rewrite N in N2. injection N2 as <-.
        cbn [cstep] in H. rewrite N, D in H. injection H as <-. reflexivity. }
      rewrite E. split; [intros X; apply KN; tauto|]. intros [X|(h & d & now & X & _)]; [auto|exfalso; apply NE; eauto].
Qed.
Definition late_in (t0 : Z) (es : list cevent) : Prop := exists h d now, In (CSweepQ h d now) es /\ t0 + d < now.
Lemma late_dec t0 es : late_in t0 es \/ ~ late_in t0 es.
Proof.
  induction es as [|e es [(h & d & now & X & Y)|IH]]; [right; intros (? & ? & ? & [] & _)|left; exists h, d, now; split; [right; exact X|exact Y]|].
  destruct e as [| | | | | | |h d now| |]; try (right; intros (h' & d' & n' & [X|X] & Y); [discriminate X|apply IH; exists h', d', n'; auto]).
  destruct (Z_lt_dec (t0 + d) now) as [Y|Y]; [left; exists h, d, now; split; [left; reflexivity|exact Y]|].
  right. intros (h' & d' & n' & [X|X] & Z); [injection X as <- <- <-; contradiction|apply IH; exists h', d', n'; auto].
Qed.
Lemma kept_run pr q p l t0 pk es : forall c c1, sinv c -> crun pr c es = Ok c1 -> lone q c1 -> kept q p l t0 pk False c -> kept q p l t0 pk (late_in t0 es) c1.
Proof.
  induction es as [|e es IH] using rev_ind; intros c c1 I H L K.
  - cbn in H. injection H as <-. destruct K as (t & s & A & B & C & D & E & F & G & G'). exists t, s. do 6 (split; [assumption|]). split; [intros _; apply G; tauto|]. intros (? & ? & ? & [] & _).
  - rewrite crun_app in H. apply bind_ok in H as (c0 & E & H). cbn [crun] in H. apply bind_ok in H as (c2 & E1 & H). injection H as <-.
    assert (L0 : lone q c0) by (apply (lone_back pr q [e] c0 c2); [cbn [crun]; rewrite E1; reflexivity|exact L]).
    specialize (IH c c0 I E L0 K). pose proof (kept_step pr q p l t0 pk _ c0 e c2 (late_dec t0 es) (sinv_run pr es _ _ I E) E1 L IH) as (t & s & A & B & C & D & F & G & K1 & K2).
    exists t, s. do 6 (split; [assumption|]). split.
    + intros X. apply K1. intros [(h & d & now & Y & Z)|(h & d & now & -> & Z)]; apply X; exists h, d, now; (split; [apply in_app_iff|exact Z]); [left; exact Y|right; left; reflexivity].
    + intros (h & d & now & Y & Z). apply K2. apply in_app_iff in Y as [Y|[Y|[]]]; [left; exists h, d, now; auto|right; exists h, d, now; auto].
Qed.

(** ** Theorems *)
(** C122, exactly: an id that finds results goes on finding the same packets as long as no sweep has read a
    clock beyond the cache time after the FIRST packet of the send, and finds nothing after such a sweep,
    whatever else happens in the client. *)
Theorem C122_kept_partial : forall pr sessions es c q r0 rs es' c', crun pr (cstart sessions) es = Ok c -> Query (ct_ca c) q = Ok (Some (r0 :: rs)) ->
  crun pr c es' = Ok c' -> lone q c' ->
  ((forall h d now, In (CSweepQ h d now) es' -> now <= rt_send r0 + d) -> exists l, Query (ct_ca c') q = Ok (Some l) /\ map packet_of l = map packet_of (r0 :: rs)) /\
  ((exists h d now, In (CSweepQ h d now) es' /\ rt_send r0 + d < now) -> Query (ct_ca c') q = Ok None).
Proof.
  intros pr sessions es c q r0 rs es' c' H QU H' L. pose proof (sinv_run pr es _ _ (sinv_start sessions) H) as I. unfold Query in QU.
  destruct (load Z.eqb q (ca_query (ct_ca c))) as [[|p l]|] eqn:LD; [discriminate QU| |discriminate QU]. injection QU as QU.
  pose proof (load_in _ _ _ _ LD) as (k & E & IN). apply Z.eqb_eq in E. subst k. destruct (si_qry _ I _ _ IN) as (t & s & N & D & Q & R).
  assert (K : kept q p l (rt_send r0) (map packet_of (r0 :: rs)) False c).
  { exists t, s. do 4 (split; [assumption|]). split; [|split; [rewrite <- QU; reflexivity|split; [intros _; exact LD|intros []]]].
    cbn [deref] in QU. destruct (nth_error (ca_heap (ct_ca c)) p) as [r|] eqn:NP; [|exfalso; apply (res_there c t s p I N); [rewrite R; left; reflexivity|exact NP]].
    injection QU as -> _. eauto. }
  destruct (kept_run pr q p l _ _ es' c c' I H' L K) as (t' & s' & _ & _ & _ & _ & _ & PK & K1 & K2). split.
  - intros X. exists (deref (ca_heap (ct_ca c')) (p :: l)). split; [|exact PK]. unfold Query. rewrite K1; [reflexivity|]. intros (h & d & now & Y & Z). specialize (X h d now Y). lia.
  - intros X. unfold Query. rewrite (K2 X). reflexivity.
Qed.
Print Assumptions C122_kept_partial.
Lemma in_rounds h check expire start n rounds h' d' now' : StartCacheExpireTicker h check expire start n = Ok rounds -> In (CSweepQ h' d' now') rounds ->
  d' = set_or expire (60 * second) /\ exists k, (1 <= k <= n)%nat /\ now' = start + Z.of_nat k * set_or check second.
Proof.
  unfold StartCacheExpireTicker, NewTicker. cbv zeta. change (60 * second) with (60 * 1000000000). unfold set_or, second. change (10 ^ 9) with 1000000000.
  destruct (_ <=? 0); cbn [bind]; [discriminate|]. intros H X. injection H as <-. apply in_flat_map in X as (k & K & X). apply in_seq in K. cbn [sweep_round In] in X.
  destruct X as [X|[X|[X|[]]]]; try discriminate X. injection X as _ <- <-. split; [reflexivity|]. exists k. split; [lia|reflexivity].
Qed.
(** C122, by the clock: with the sweeper running on its ticker, at a time [now] between two ticks, the id
    still finds its packets up to the cache time after the first packet, and finds nothing from one check
    interval later on (if a round has come since the send returned). *)
Theorem C122_partial : forall pr sessions es c q r0 rs es' c' h check expire start n rounds now,
  crun pr (cstart sessions) es = Ok c -> Query (ct_ca c) q = Ok (Some (r0 :: rs)) -> crun pr c es' = Ok c' -> lone q c' ->
  StartCacheExpireTicker h check expire start n = Ok rounds -> filter sweeping (es ++ es') = rounds ->
  start + Z.of_nat n * set_or check second <= now < start + (Z.of_nat n + 1) * set_or check second ->
  (now <= rt_send r0 + set_or expire (60 * second) -> exists l, Query (ct_ca c') q = Ok (Some l) /\ map packet_of l = map packet_of (r0 :: rs)) /\
  (rt_send r0 + set_or expire (60 * second) + set_or check second <= now -> In (CSweepQ h (set_or expire (60 * second)) (start + Z.of_nat n * set_or check second)) es' ->
   Query (ct_ca c') q = Ok None).
Proof.
  intros pr sessions es c q r0 rs es' c' h check expire start n rounds now H QU H' L ST F T.
  destruct (C122_kept_partial pr sessions es c q r0 rs es' c' H QU H' L) as [A B]. split.
  - intros X. apply A. intros h1 d1 now1 IN. assert (IN' : In (CSweepQ h1 d1 now1) rounds) by (rewrite <- F; apply filter_In; split; [apply in_app_iff; auto|reflexivity]).
    destruct (in_rounds _ _ _ _ _ _ _ _ _ ST IN') as (-> & k & K & ->). assert (P : 0 < set_or check second).
    { unfold StartCacheExpireTicker, NewTicker in ST. cbv zeta in ST. unfold set_or, second. change (10 ^ 9) with 1000000000. destruct (_ <=? 0) eqn:E in ST; [discriminate ST|]. apply Z.leb_gt in E. exact E. }
    nia.
  - intros X IN. apply B. eexists _, _, _. split; [exact IN|]. nia.
Qed.
Print Assumptions C122_partial.
(** Refuted for the later packets of a send: whatever the cache time, a round that comes after it has passed
    since the first packet takes the results of all of them, also of one sent later whose own time has not
    passed. *)
Theorem C122_refuted : forall pr sessions es c q r0 rs r h d c', crun pr (cstart sessions) es = Ok c -> Query (ct_ca c) q = Ok (Some (r0 :: rs)) -> lone q c ->
  In r rs -> rt_send r0 < rt_send r -> cstep pr c (CSweepQ h d (rt_send r0 + d + 1)) = Ok c' ->
  Query (ct_ca c') q = Ok None /\ rt_send r0 + d + 1 <= rt_send r + d.
Proof.
  intros pr sessions es c q r0 rs r h d c' H QU L IN LT ST. split; [|lia].
  assert (R : crun pr c [CSweepQ h d (rt_send r0 + d + 1)] = Ok c') by (cbn [crun]; rewrite ST; reflexivity).
  apply (C122_kept_partial pr sessions es c q r0 rs _ c' H QU R).
  - cbn [cstep] in ST. injection ST as <-. exact L.
  - exists h, d, (rt_send r0 + d + 1). split; [left; reflexivity|lia].
Qed.
Print Assumptions C122_refuted.
Lemma rounds_len h d (f : nat -> Z) n : forall k, length (flat_map (fun k => sweep_round h d (f k)) (seq k n)) = (3 * n)%nat.
Proof. induction n as [|n IH]; intros k; [reflexivity|]. cbn [seq flat_map sweep_round app length]. rewrite IH. lia. Qed.
(** Refuted for the check interval: a negative one ends the client as soon as the sweeper starts.  Every
    other one is taken; 0 stands for a second. *)
Theorem C122_refuted_interval : forall h check expire start n, (check < 0 <-> StartCacheExpireTicker h check expire start n = Panic) /\
  (0 <= check -> exists rounds, StartCacheExpireTicker h check expire start n = Ok rounds /\ length rounds = (3 * n)%nat).
Proof.
  intros h check expire start n. unfold StartCacheExpireTicker, NewTicker. cbv zeta. destruct (check =? 0) eqn:Z.
  - apply Z.eqb_eq in Z. subst. cbn [Z.leb Z.compare bind]. split; [split; [lia|discriminate]|]. intros _. eexists. split; [reflexivity|].
    apply rounds_len.
  - apply Z.eqb_neq in Z. destruct (check <=? 0) eqn:E; cbn [bind].
    + apply Z.leb_le in E. split; [split; [reflexivity|lia]|lia].
    + apply Z.leb_gt in E. split; [split; [lia|discriminate]|]. intros _. eexists. split; [reflexivity|].
      apply rounds_len.
Qed.
Print Assumptions C122_refuted_interval.

(** ** Cases *)
(** A send to two numbers, the first packet at 6 s, the second at 40 s (a session was free only then); no
    settings: a cache time of a minute, a round each second from 0 on. *)
Definition keep_es : list cevent :=
  [CBegin 77 [72;105] [] [[49;51;48]; [49;51;49]]; CPick 0 (Some 0%nat) d_demo 5; CWrite 0 true 5; CRecord 0 (6 * second); CPick 0 (Some 0%nat) d_demo 5; CWrite 0 true 5; CRecord 0 (40 * second); CDone 0].
Definition keep_shows (es : list cevent) : option (list (bytes * Z * Z)) :=
  match crun pr_demo (cstart [sess_demo P_SGIP]) es with Ok c => match Query (ct_ca c) 77 with Ok (Some l) => Some (map packet_of l) | _ => None end | _ => None end.
(** At 66 s both packets are shown, at 67 s none, although the second was sent 27 s ago. *)
Example C122_case :
  keep_shows (keep_es ++ sweep_round true (60 * second) (66 * second)) = Some [([49;51;48], 5 * 2 ^ 32 + 9, 6 * second); ([49;51;49], 5 * 2 ^ 32 + 9, 40 * second)] /\
  keep_shows (keep_es ++ sweep_round true (60 * second) (66 * second) ++ sweep_round true (60 * second) (67 * second)) = None.
Proof. vm_compute. auto. Qed.
Example C122_hypotheses : exists c r0 r c' rounds, crun pr_demo (cstart [sess_demo P_SGIP]) keep_es = Ok c /\ Query (ct_ca c) 77 = Ok (Some [r0; r]) /\ rt_send r0 < rt_send r /\ lone 77 c /\
  StartCacheExpireTicker true (7 * second) 0 (41 * second) 2 = Ok rounds /\ crun pr_demo c rounds = Ok c' /\ lone 77 c' /\ filter sweeping (keep_es ++ rounds) = rounds /\
  In (CSweepQ true (set_or 0 (60 * second)) (41 * second + 2 * set_or (7 * second) second)) rounds.
Proof.
  do 5 eexists. split; [vm_compute; reflexivity|]. split; [vm_compute; reflexivity|]. split; [vm_compute; reflexivity|].
  assert (L : forall c x, ct_send c = [x] -> lone 77 c) by (intros c x E t t' s s' N N' _ _; rewrite E in N, N'; destruct t as [|[|]], t' as [|[|]]; try discriminate N; try discriminate N'; reflexivity).
  split; [eapply L; reflexivity|]. split; [vm_compute; reflexivity|]. split; [vm_compute; reflexivity|]. split; [eapply L; reflexivity|]. split; [vm_compute; reflexivity|].
  right. right. right. left. reflexivity.
Qed.
