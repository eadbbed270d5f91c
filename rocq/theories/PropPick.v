(** * PropPick: property C75 (a sender gets a session while a usable one exists).
    Model: PickModel.v, FactoryModel.v. *)
From Coq Require Import Sorting.Permutation.
From Verif Require Import Base OptionsModel FrameModel ClientModel FactoryModel PropFactory PickModel.

(** ** Specification *)
(** A session whose connection was given up: nothing ever gives it one again
    (session.go assigns con in NewSession and Close only). *)
Definition gone (s : csess) : Prop := cs_con s = false.
(** What the environment may do in state [f]. *)
Definition allowed (f : fac) (e : fev) : Prop :=
  match e with
  | FTick order => sort_result (map (fun i => (i, fc_w f i)) (fc_list f)) (map (fun i => (i, fc_w f i)) order)
  | FTry (TMade (i, _)) => ~ In i (fc_list f)
  | FSess i s => gone (fc_w f i) -> gone s
  | _ => True
  end.
Fixpoint all_allowed (conf : Z) (f : fac) (es : list fev) : Prop :=
  match es with
  | [] => True
  | e :: r => allowed f e /\ forall f1, fstep conf f e = Ok f1 -> all_allowed conf f1 r
  end.
(** New sessions among the events. *)
Definition made (es : list fev) : Z := zlen (filter (fun e => match e with FTry (TMade _) => true | _ => false end) es).
Definition cancelled (es : list fev) : Prop := In (FTry TCancel) es.
(** The last head a sender has seen when it looks at the last of [views]. *)
Definition last_head (views : list ((nat -> csess) * option nat)) : option nat :=
  fold_left (fun r v => match snd v with Some h => Some h | None => r end) views None.

(** ** When the wait ends *)
(** A waiting sender gets session [i] exactly at the first look at which the last head it
    has seen is healthy, and that head is [i]. *)
Theorem C75_exact : forall views i, PeekSession true views = PeekGot i <->
  exists a w h b, views = a ++ (w, h) :: b
    /\ last_head (a ++ [(w, h)]) = Some i /\ HealthCheck (w i) = true
    /\ forall a1 w1 h1 b1 j, a = a1 ++ (w1, h1) :: b1 -> last_head (a1 ++ [(w1, h1)]) = Some j -> HealthCheck (w1 j) = false.
Proof.
  intros views i. unfold PeekSession.
  set (lh := fun (r : option nat) (views : list ((nat -> csess) * option nat)) => fold_left (fun r v => match snd v with Some h => Some h | None => r end) views r).
  assert (G : forall (views : list ((nat -> csess) * option nat)) ret, peek_loop ret views = PeekGot i <->
     exists a w h b, views = a ++ (w, h) :: b
    /\ lh ret (a ++ [(w, h)]) = Some i /\ HealthCheck (w i) = true
    /\ forall a1 w1 h1 b1 j, a = a1 ++ (w1, h1) :: b1 -> lh ret (a1 ++ [(w1, h1)]) = Some j -> HealthCheck (w1 j) = false).
  { clear. induction views as [|[w h] r IH]; intros ret; cbn [peek_loop].
    - split; [discriminate|]. intros (a & w & h & b & E & _). destruct a; discriminate E.
    - set (ret1 := match h with Some x => Some x | None => ret end).
      assert (N : forall a, lh ret ((w, h) :: a) = lh ret1 a) by reflexivity.
      assert (K : (match ret1 with Some j => HealthCheck (w j) = false | None => True end) ->
        ((exists a w0 h0 b, r = a ++ (w0, h0) :: b /\ lh ret1 (a ++ [(w0, h0)]) = Some i /\ HealthCheck (w0 i) = true
           /\ forall a1 w1 h1 b1 j, a = a1 ++ (w1, h1) :: b1 -> lh ret1 (a1 ++ [(w1, h1)]) = Some j -> HealthCheck (w1 j) = false)
         <-> exists a w0 h0 b, (w, h) :: r = a ++ (w0, h0) :: b /\ lh ret (a ++ [(w0, h0)]) = Some i /\ HealthCheck (w0 i) = true
           /\ forall a1 w1 h1 b1 j, a = a1 ++ (w1, h1) :: b1 -> lh ret (a1 ++ [(w1, h1)]) = Some j -> HealthCheck (w1 j) = false)).
      { intros D. split.
        - intros (a & w0 & h0 & b & -> & A & B & C). exists ((w, h) :: a), w0, h0, b. split; [reflexivity|]. split; [exact A|]. split; [exact B|].
          intros a1 w1 h1 b1 j E L. destruct a1 as [|x a1]; cbn [app] in E.
          + injection E as E1 E2 E3. subst w1 h1. cbn [app] in L. rewrite N in L. change (lh ret1 []) with ret1 in L. rewrite L in D. exact D.
          + injection E as E1 E2. subst x. cbn [app] in L. rewrite N in L. exact (C a1 w1 h1 b1 j E2 L).
        - intros (a & w0 & h0 & b & E & A & B & C). destruct a as [|x a]; cbn [app] in E.
          + injection E as E1 E2 E3. subst w0 h0. cbn [app] in A. rewrite N in A. change (lh ret1 []) with ret1 in A. rewrite A in D. congruence.
          + injection E as E1 E2. subst x. exists a, w0, h0, b. split; [exact E2|]. cbn [app] in A. rewrite N in A. split; [exact A|]. split; [exact B|].
            intros a1 w1 h1 b1 j E L. apply (C ((w, h) :: a1) w1 h1 b1 j); [rewrite E; reflexivity|cbn [app]; rewrite N; exact L]. }
      destruct ret1 as [j|] eqn:R1.
      + destruct (HealthCheck (w j)) eqn:HC.
        * split.
          -- intros E. assert (j = i) by congruence. subst j. exists [], w, h, r. split; [reflexivity|]. split; [cbn [app]; rewrite N; reflexivity|]. split; [exact HC|].
             intros a1 w1 h1 b1 j E1. destruct a1; discriminate E1.
          -- intros (a & w0 & h0 & b & E & A & B & C). destruct a as [|x a]; cbn [app] in E.
             ++ injection E as E1 E2 E3. subst w0 h0. cbn [app] in A. rewrite N in A. change (lh (Some j) []) with (Some j) in A. congruence.
             ++ injection E as E1 E2. subst x. specialize (C [] w h a j eq_refl). cbn [app] in C. rewrite N in C. specialize (C eq_refl). congruence.
        * rewrite (IH (Some j)). apply K. reflexivity.
      + rewrite (IH None). apply K. exact I. }
  apply G.
Qed.

(** ** A maintenance round repairs the head *)
Lemma put_in w l i s : NoDup (map fst l) -> In (i, s) l -> put w l i = s.
Proof.
  intros N H. unfold put. induction l as [|[j t] l IH]; [contradiction|]. cbn [find fst]. inversion N; subst.
  destruct H as [H|H]; [injection H as -> ->; rewrite Nat.eqb_refl; reflexivity|].
  destruct (Nat.eqb j i) eqn:E; [|auto]. apply Nat.eqb_eq in E. subst j. exfalso. apply H2. apply (in_map fst) in H. exact H.
Qed.
Lemma put_out w l i : ~ In i (map fst l) -> put w l i = w i.
Proof.
  intros H. unfold put. induction l as [|[j t] l IH]; [reflexivity|]. cbn [find fst map In] in *.
  destruct (Nat.eqb j i) eqn:E; [apply Nat.eqb_eq in E; subst; tauto|]. apply IH. tauto.
Qed.
Lemma ids_map (w : nat -> csess) l : map fst (map (fun i => (i, w i)) l) = l.
Proof. rewrite map_map. cbn [fst]. apply map_id. Qed.

Theorem C75_after_tick_partial : forall conf f order f1, fc_busy f = false -> fc_stopped f = false -> NoDup (fc_list f) ->
  allowed f (FTick order) -> (forall i, In i (fc_list f) -> 0 <= cs_pcnt (fc_w f i) < 10000000000) ->
  fstep conf f (FTick order) = Ok f1 ->
  (exists i, In i (fc_list f) /\ HealthCheck (fc_w f i) = true) ->
  exists h, In h (fc_list f) /\ HealthCheck (fc_w f h) = true
    /\ (forall i, In i (fc_list f) -> HealthCheck (fc_w f i) = true -> cs_pcnt (fc_w f h) <= cs_pcnt (fc_w f i))
    /\ PeekSession true [view f1] = PeekGot h.
Proof.
  intros conf f order f1 B ST ND [P SO] U H (i & II & HI). cbn [fstep] in H. rewrite B, ST in H. cbn [orb] in H.
  apply bind_ok in H as ([k c] & K & H).
  assert (J : forall x y : fac, Ok x = Ok y -> y = x) by congruence. apply J in H.
  pose proof (keep_spec _ _ _ K) as (KS & _ & _).
  set (nl := map (fun i => (i, fc_w f i)) order) in *.
  assert (PO : Permutation (fc_list f) order).
  { apply (Permutation_map fst) in P. unfold nl in P. rewrite !ids_map in P. exact P. }
  assert (UN : Forall (fun x => 0 <= usage x < 10000000000) nl).
  { apply Forall_forall. intros [j s] X. unfold nl in X. apply in_map_iff in X as (j' & E & X). injection E as -> <-. apply U. apply (Permutation_in j (Permutation_sym PO) X). }
  pose proof (sorted_rising nl SO UN) as R.
  assert (NE : In (i, fc_w f i) (filter well nl)).
  { apply filter_In. split; [|exact HI]. unfold nl. apply in_map_iff. exists i. split; [reflexivity|]. apply (Permutation_in i PO II). }
  assert (ALL : forall x, In x (filter well nl) -> In (fst x) (fc_list f) /\ snd x = fc_w f (fst x) /\ HealthCheck (snd x) = true).
  { intros x X. apply filter_In in X as [X W]. unfold nl in X. apply in_map_iff in X as (j & <- & X). cbn [fst snd] in *. repeat split; auto. apply (Permutation_in j (Permutation_sym PO) X). }
  destruct (filter well nl) as [|[h s] t] eqn:F; [contradiction|].
  destruct (ALL (h, s) (or_introl eq_refl)) as (IH & ES & HS). cbn [fst snd] in IH, ES, HS. subst s.
  exists h. split; [exact IH|]. split; [exact HS|]. split.
  - intros j JI HJ.
    assert (JN : In (j, fc_w f j) ((h, fc_w f h) :: t)).
    { assert (X : In (j, fc_w f j) (filter well nl)) by (apply filter_In; split; [|exact HJ]; unfold nl; apply in_map_iff; exists j; split; [reflexivity|apply (Permutation_in j PO JI)]).
      rewrite F in X. exact X. }
    cbn [map] in R. inversion R as [|x l FA _]; subst. destruct JN as [E|JN]; [injection E as <- _; lia|].
    rewrite Forall_forall in FA. specialize (FA (usage (j, fc_w f j)) (in_map usage _ _ JN)). unfold usage in FA. cbn [snd] in FA. exact FA.
  - rewrite H. unfold view. cbn [fc_w fc_list].
    assert (KK : k = (h, ResetCounter (fc_w f h)) :: map (fun x => (fst x, ResetCounter (snd x))) t) by (rewrite KS; reflexivity).
    assert (NK : NoDup (map fst k)).
    { assert (NN : NoDup (map fst nl)) by (unfold nl; rewrite ids_map; apply (Permutation_NoDup PO ND)).
      assert (NF : forall l : list numbered, NoDup (map fst l) -> NoDup (map fst (filter well l))).
      { clear. induction l as [|x l IHl]; intros NN; cbn [filter]; [constructor|]. cbn [map] in NN. inversion NN; subst.
        destruct (well x); [|auto]. cbn [map]. constructor; [|auto]. intros X. apply H1. apply in_map_iff in X as (y & <- & Y). apply filter_In in Y as [Y _]. apply in_map. exact Y. }
      specialize (NF nl NN). rewrite F in NF. rewrite KS, map_map. exact NF. }
    rewrite KK at 2. cbn [map fst hd_error]. unfold PeekSession. cbn [peek_loop].
    rewrite (put_in _ k h (ResetCounter (fc_w f h)) NK) by (rewrite KK; left; reflexivity).
    assert (HR : HealthCheck (ResetCounter (fc_w f h)) = true) by (unfold HealthCheck, ResetCounter in *; cbn [cs_stat cs_con cs_ac]; exact HS).
    rewrite HR. reflexivity.
Qed.

(** ** Refutation: the wait never ends *)
Lemma gone_unhealthy s : gone s -> HealthCheck s = false.
Proof. unfold gone, HealthCheck. intros ->. destruct (cs_stat s); reflexivity. Qed.
Lemma put_one_gone (w : nat -> csess) i s h : gone (w h) -> (gone (w i) -> gone s) -> gone (put w [(i, s)] h).
Proof. intros G A. unfold put. cbn [find fst]. destruct (Nat.eqb i h) eqn:E; [apply Nat.eqb_eq in E; subst; auto|exact G]. Qed.

Lemma peek_dead h : forall views ret, (ret = None \/ ret = Some h) ->
  (forall w o, In (w, o) views -> (o = None \/ o = Some h) /\ HealthCheck (w h) = false) -> peek_loop ret views = PeekWait.
Proof.
  induction views as [|[w o] r IH]; intros ret R V; [reflexivity|]. cbn [peek_loop].
  destruct (V w o (or_introl eq_refl)) as [O HC].
  assert (R1 : match o with Some x => Some x | None => ret end = None \/ match o with Some x => Some x | None => ret end = Some h)
    by (destruct O as [->| ->]; auto).
  set (ret1 := match o with Some x => Some x | None => ret end) in *.
  assert (G : peek_loop ret1 r = PeekWait) by (apply IH; [exact R1|intros w' o' I; apply V; right; exact I]).
  destruct R1 as [E|E]; rewrite E in *; [exact G|]. rewrite HC. exact G.
Qed.

Lemma dead_head conf h (ok : fac -> list fev -> Prop)
  (STEP : forall f e r f1, ok f (e :: r) -> allowed f e -> gone (fc_w f h) -> hd_error (fc_list f) = Some h -> fstep conf f e = Ok f1 ->
     ok f1 r /\ gone (fc_w f1 h) /\ hd_error (fc_list f1) = Some h) :
  forall es f fs, ok f es -> all_allowed conf f es -> gone (fc_w f h) -> hd_error (fc_list f) = Some h -> frun conf f es = Ok fs ->
  forall g, In g fs -> gone (fc_w g h) /\ hd_error (fc_list g) = Some h.
Proof.
  induction es as [|e r IH]; intros f fs OK A G HD R g I; cbn [frun] in R.
  - injection R as <-. destruct I as [<-|[]]. auto.
  - apply bind_ok in R as (f1 & S1 & R). apply bind_ok in R as (fs1 & R1 & R). injection R as <-. destruct A as [A1 A2].
    destruct I as [<-|I]; [auto|]. destruct (STEP f e r f1 OK A1 G HD S1) as (OK1 & G1 & HD1).
    exact (IH f1 fs1 OK1 (A2 f1 S1) G1 HD1 R1 g I).
Qed.
Lemma waits h fs views : (forall g, In g fs -> gone (fc_w g h) /\ hd_error (fc_list g) = Some h) ->
  Forall (fun v => exists g, In g fs /\ v = view g) views -> PeekSession true views = PeekWait.
Proof.
  intros D F. unfold PeekSession. apply (peek_dead h); [auto|]. intros w o I. rewrite Forall_forall in F.
  destruct (F _ I) as (g & GI & E). unfold view in E. injection E as -> ->. destruct (D g GI) as [G HD]. rewrite HD.
  split; [auto|]. apply gone_unhealthy. exact G.
Qed.

Lemma limit_is conf : max_of conf = limit conf.
Proof. reflexivity. Qed.
(** While the connect loop is at work the list is never sorted again: if the head fails
    then, and the gateway does not grant the missing connections, every sender waits for
    ever, whatever else happens and however many healthy sessions stand behind the head. *)
Theorem C75_refuted_busy : forall conf f h rest es fs views, fc_list f = h :: rest -> gone (fc_w f h) -> fc_busy f = true ->
  all_allowed conf f es -> ~ cancelled es -> zlen (fc_list f) + made es < limit conf -> frun conf f es = Ok fs ->
  Forall (fun v => exists g, In g fs /\ v = view g) views -> PeekSession true views = PeekWait.
Proof.
  intros conf f h rest es fs views L G B A C M R. rewrite <- limit_is in M. apply (waits h).
  apply (dead_head conf h (fun f es => fc_busy f = true /\ ~ cancelled es /\ zlen (fc_list f) + made es < max_of conf)) with (es := es) (f := f).
  - clear. intros f e r f1 (B & C & M) A G HD S1.
    assert (C1 : ~ cancelled r) by (intros X; apply C; right; exact X).
    destruct e as [order|t|i s|]; cbn [fstep] in S1.
    + rewrite B in S1. injection S1 as <-. auto.
    + rewrite B in S1. destruct t as [| |[i s]].
      * exfalso. apply C. left. reflexivity.
      * injection S1 as <-. auto.
      * assert (Z1 : zlen (fc_list f ++ [i]) = zlen (fc_list f) + 1) by (rewrite zlen_app; reflexivity).
        assert (M1 : made (FTry (TMade (i, s)) :: r) = made r + 1) by (unfold made; cbn [filter]; unfold zlen; cbn [length]; lia).
        assert (M0 : 0 <= made r) by (unfold made, zlen; lia).
        injection S1 as <-. cbn [fc_busy fc_list fc_w]. cbn [allowed] in A.
        assert (NI : i <> h) by (intros ->; apply A; destruct (fc_list f); [discriminate HD|injection HD as ->; left; reflexivity]).
        split; [split; [lia|split; [exact C1|lia]]|]. split.
        -- unfold put. cbn [find fst]. replace (Nat.eqb i h) with false by (symmetry; apply Nat.eqb_neq; exact NI). exact G.
        -- destruct (fc_list f); [discriminate HD|exact HD].
    + injection S1 as <-. cbn [fc_busy fc_list fc_w]. split; [auto|]. split; [apply put_one_gone; assumption|exact HD].
    + injection S1 as <-. cbn [fc_busy fc_list fc_w]. auto.
  - auto.
  - exact A.
  - exact G.
  - rewrite L. reflexivity.
  - exact R.
Qed.

(** After the shutdown hook has stopped the ticker the list is never sorted again either: a
    sender that comes when the head is closed waits for ever. *)
Theorem C75_refuted_stopped : forall conf f h rest es fs views, fc_list f = h :: rest -> gone (fc_w f h) -> fc_stopped f = true ->
  all_allowed conf f es -> frun conf f es = Ok fs ->
  Forall (fun v => exists g, In g fs /\ v = view g) views -> PeekSession true views = PeekWait.
Proof.
  intros conf f h rest es fs views L G B A R. apply (waits h).
  apply (dead_head conf h (fun f es => fc_stopped f = true)) with (es := es) (f := f); [|exact B|exact A|exact G|rewrite L; reflexivity|exact R].
  clear. intros f e r f1 B A G HD S1.
  destruct e as [order|t|i s|]; cbn [fstep] in S1.
  - rewrite B, orb_true_r in S1. injection S1 as <-. auto.
  - destruct (fc_busy f); [|injection S1 as <-; auto]. destruct t as [| |[i s]]; injection S1 as <-; auto.
    cbn [fc_stopped fc_list fc_w]. cbn [allowed] in A.
    assert (NI : i <> h) by (intros ->; apply A; destruct (fc_list f); [discriminate HD|injection HD as ->; left; reflexivity]).
    split; [exact B|]. split; [|destruct (fc_list f); [discriminate HD|exact HD]].
    unfold put. cbn [find fst]. replace (Nat.eqb i h) with false by (symmetry; apply Nat.eqb_neq; exact NI). exact G.
  - injection S1 as <-. cbn [fc_stopped fc_list fc_w]. split; [exact B|]. split; [apply put_one_gone; assumption|exact HD].
  - injection S1 as <-. auto.
Qed.

(** With no session at all and a gateway that cannot be reached every sender waits for ever
    (and is not told). *)
Theorem C75_refuted_empty : forall conf f es fs views, fc_list f = [] -> all_allowed conf f es -> made es = 0 -> frun conf f es = Ok fs ->
  Forall (fun v => exists g, In g fs /\ v = view g) views -> PeekSession true views = PeekWait.
Proof.
  intros conf f es fs views L A M R F.
  assert (D : forall g, In g fs -> fc_list g = []).
  { clear F views. revert f fs L A M R. induction es as [|e r IH]; intros f fs L A M R g I; cbn [frun] in R.
    - injection R as <-. destruct I as [<-|[]]. exact L.
    - apply bind_ok in R as (f1 & S1 & R). apply bind_ok in R as (fs1 & R1 & R). injection R as <-. destruct A as [A1 A2].
      destruct I as [<-|I]; [exact L|].
      assert (LM : fc_list f1 = [] /\ made r = 0).
      { destruct e as [order|t|i s|]; cbn [fstep] in S1.
        - split; [|exact M]. destruct (fc_busy f || fc_stopped f); [injection S1 as <-; exact L|].
          cbn [allowed] in A1. rewrite L in A1. destruct A1 as [P _]. cbn [map] in P. apply Permutation_nil in P. apply map_eq_nil in P. rewrite P in S1. cbn in S1. injection S1 as <-. reflexivity.
        - destruct t as [| |[i s]].
          + split; [|exact M]. destruct (fc_busy f); injection S1 as <-; exact L.
          + split; [|exact M]. destruct (fc_busy f); injection S1 as <-; exact L.
          + exfalso. assert (made (FTry (TMade (i, s)) :: r) = made r + 1) by (unfold made; cbn [filter]; unfold zlen; cbn [length]; lia).
            assert (0 <= made r) by (unfold made, zlen; lia). lia.
        - split; [|exact M]. injection S1 as <-. exact L.
        - split; [|exact M]. injection S1 as <-. exact L. }
      destruct LM as [L1 M1]. exact (IH f1 fs1 L1 (A2 f1 S1) M1 R1 g I). }
  unfold PeekSession. assert (V : Forall (fun v : (nat -> csess) * option nat => snd v = None) views).
  { eapply Forall_impl; [|exact F]. intros v (g & GI & ->). unfold view. cbn [snd]. rewrite (D g GI). reflexivity. }
  clear - V. induction V as [|[w o] r E V IH]; [reflexivity|]. cbn [snd] in E. subst o. cbn [peek_loop]. exact IH.
Qed.

(** ** How many sessions a carrier has *)
Lemma keep_len order : forall w k c, keep_healthy (map (fun i => (i, w i)) order) = Ok (k, c) -> zlen k <= zlen order.
Proof.
  intros w k c K. destruct (keep_spec _ _ _ K) as (-> & _). unfold zlen. rewrite map_length.
  assert (FL : forall m, (length (filter well m) <= length m)%nat) by (induction m as [|x m IH]; cbn [filter length]; [lia|]; destruct (well x); cbn [length]; lia).
  specialize (FL (map (fun i => (i, w i)) order)). rewrite map_length in FL. unfold numbered in *. lia.
Qed.
(** Whatever happens, there are never more than configured (two, if the number configured is not positive), and the
    connect loop is left running only while some are missing. *)
Definition within (conf : Z) (f : fac) : Prop :=
  zlen (fc_list f) <= limit conf /\ (fc_busy f = true -> zlen (fc_list f) < limit conf).
Lemma within_step conf f e f1 : within conf f -> allowed f e -> fstep conf f e = Ok f1 -> within conf f1.
Proof.
  intros [L B] A S1. unfold within. destruct e as [order|t|i s|]; cbn [fstep] in S1.
  - destruct (fc_busy f || fc_stopped f); [injection S1 as <-; auto|]. apply bind_ok in S1 as ([k c] & K & S1).
    injection S1 as <-. cbn [fc_list fc_busy]. change (max_of conf) with (limit conf).
    pose proof (keep_len _ _ _ _ K) as KL. cbn [allowed] in A. destruct A as [P _]. apply Permutation_length in P.
    rewrite !map_length in P. unfold zlen, numbered in *. rewrite map_length. split; [lia|]. intros T. lia.
  - destruct (fc_busy f) eqn:Q; [|injection S1 as <-; rewrite Q; auto]. specialize (B eq_refl).
    destruct t as [| |[i s]]; injection S1 as <-; cbn [fc_list fc_busy]; change (max_of conf) with (limit conf).
    + split; [lia|discriminate].
    + rewrite Q. split; [lia|auto].
    + rewrite zlen_app. change (zlen [i]) with 1. split; [lia|]. intros T. lia.
  - injection S1 as <-. auto.
  - injection S1 as <-. auto.
Qed.
Theorem C75_never_more : forall conf f es fs g, within conf f -> all_allowed conf f es -> frun conf f es = Ok fs -> In g fs ->
  zlen (fc_list g) <= limit conf.
Proof.
  intros conf f es fs g W A R I. assert (X : within conf g); [|exact (proj1 X)].
  revert f fs W A R I. induction es as [|e r IH]; intros f fs W A R I; cbn [frun] in R.
  - injection R as <-. destruct I as [<-|[]]. exact W.
  - apply bind_ok in R as (f1 & S1 & R). apply bind_ok in R as (fs1 & R1 & R). injection R as <-. destruct A as [A1 A2].
    destruct I as [<-|I]; [exact W|]. exact (IH f1 fs1 (within_step _ _ _ _ W A1 S1) (A2 f1 S1) R1 I).
Qed.
(** A round that leaves fewer starts connecting, and, unless cancelled, goes on until the number is reached: after each new
    session there are that many more, and the loop ends exactly when none is missing. *)
Theorem C75_refills :
  (forall conf f order f1, fc_busy f = false -> fc_stopped f = false -> fstep conf f (FTick order) = Ok f1 ->
     (fc_busy f1 = true <-> zlen (fc_list f1) < limit conf)) /\
  (forall conf f es fs g, fc_busy f = true -> zlen (fc_list f) + made es <= limit conf -> zlen (fc_list f) < limit conf ->
     ~ cancelled es -> (forall o, ~ In (FTick o) es) -> frun conf f es = Ok fs -> last fs f = g ->
     zlen (fc_list g) = zlen (fc_list f) + made es /\ (fc_busy g = true <-> zlen (fc_list g) < limit conf)).
Proof.
  split.
  - intros conf f order f1 B ST S1. cbn [fstep] in S1. rewrite B, ST in S1. cbn [orb] in S1.
    apply bind_ok in S1 as ([k c] & K & S1). injection S1 as <-. cbn [fc_busy fc_list]. change (max_of conf) with (limit conf).
    unfold zlen, numbered in *. rewrite map_length. lia.
  - intros conf f es fs g B M L C T R E. subst g.
    assert (G : forall es f fs, (fc_busy f = true <-> zlen (fc_list f) < limit conf) -> zlen (fc_list f) + made es <= limit conf ->
       ~ cancelled es -> (forall o, ~ In (FTick o) es) -> frun conf f es = Ok fs -> forall d,
       zlen (fc_list (last fs d)) = zlen (fc_list f) + made es /\ (fc_busy (last fs d) = true <-> zlen (fc_list (last fs d)) < limit conf)).
    { clear. induction es as [|e r IH]; intros f fs B M C T R d; cbn [frun] in R.
      - injection R as <-. cbn [last]. unfold made. cbn [filter]. change (zlen (@nil fev)) with 0. split; [lia|exact B].
      - apply bind_ok in R as (f1 & S1 & R). apply bind_ok in R as (fs1 & R1 & R). injection R as <-.
        assert (NE : fs1 <> []).
        { intros ->. destruct r; cbn [frun] in R1; [discriminate|]. apply bind_ok in R1 as (? & _ & R1). apply bind_ok in R1 as (? & _ & R1). discriminate. }
        replace (last (f :: fs1) d) with (last fs1 d) by (destruct fs1; [congruence|reflexivity]).
        assert (H : (fc_busy f1 = true <-> zlen (fc_list f1) < limit conf) /\ zlen (fc_list f1) + made r = zlen (fc_list f) + made (e :: r)).
        { destruct e as [order|t|i s|]; cbn [fstep] in S1.
          - destruct (T order (or_introl eq_refl)).
          - assert (Z0 : forall x, In x r -> True) by auto. unfold made in *. cbn [filter] in *.
            destruct t as [| |[i s]].
            + destruct C. left. reflexivity.
            + assert (f1 = f) as -> by (destruct (fc_busy f); congruence). auto.
            + rewrite zlen_cons in *. pose proof (zlen_nonneg (filter (fun e => match e with FTry (TMade _) => true | _ => false end) r)).
              destruct (fc_busy f) eqn:Q.
              * injection S1 as <-. cbn [fc_busy fc_list]. change (max_of conf) with (limit conf). rewrite zlen_app. change (zlen [i]) with 1.
                split; [lia|]. lia.
              * exfalso. destruct B as [_ B]. assert (X : zlen (fc_list f) < limit conf) by lia. specialize (B X). discriminate.
          - injection S1 as <-. auto.
          - injection S1 as <-. auto. }
        destruct H as (H1 & H2). rewrite <- H2. apply (IH f1 fs1); auto; [lia|intros X; apply C; right; exact X|intros o X; apply (T o); right; exact X]. }
    apply (G es f fs); auto. split; auto.
Qed.

(** Three connections wanted, two granted: the tick keeps sessions 0 (used 5 times) and 1
    (used 3 times) and sorts 1 to the front; then 1 is closed by the gateway; session 0 stays
    healthy and is never handed out. *)
Definition up (ac : authconf) (n : Z) : csess := CSess P_SGIP CLogin true (Some ac) n 0.
Definition down : csess := CSess P_SGIP CClosing false None 0 0.
Example C75_case : forall ac,
  let f0 := Fac (fun i => match i with 0%nat => up ac 5 | _ => up ac 3 end) [0; 1]%nat false false in
  let es := [FTick [1; 0]%nat; FSess 1 down; FTry TNone; FTick [0; 1]%nat; FTry TNone] in
  match frun 3 f0 es with
  | Ok fs =>
    map (fun f => (fc_list f, fc_busy f, HealthCheck (fc_w f 0%nat), HealthCheck (fc_w f 1%nat))) fs
      = [([0; 1]%nat, false, true, true); ([1; 0]%nat, true, true, true); ([1; 0]%nat, true, true, false);
         ([1; 0]%nat, true, true, false); ([1; 0]%nat, true, true, false); ([1; 0]%nat, true, true, false)]
    /\ PeekSession true (map view (firstn 1 fs)) = PeekGot 0 /\ PeekSession true (map view (skipn 1 fs)) = PeekGot 1
    /\ PeekSession true (map view (skipn 2 fs)) = PeekWait
  | _ => False end
  /\ allowed f0 (FTick [1; 0]%nat) /\ all_allowed 3 f0 es.
Proof.
  intros ac. cbv zeta. split; [vm_compute; auto|].
  assert (S1 : forall w, cs_pcnt (w 1%nat) < cs_pcnt (w 0%nat) -> 0 <= cs_pcnt (w 1%nat) -> cs_pcnt (w 0%nat) < 10000000000 ->
     HealthCheck (w 0%nat) = true -> HealthCheck (w 1%nat) = true ->
     sort_result (map (fun i => (i, w i)) [0; 1]%nat) (map (fun i => (i, w i)) [1; 0]%nat)).
  { intros w L P Q H0 H1. split; [apply perm_swap|]. intros i j a b LT A B. cbn [map] in A, B.
    destruct i as [|[|i]]; destruct j as [|[|j]]; cbn [nth_error] in A, B; try lia; try (destruct i; discriminate A); try (destruct j; discriminate B).
    injection A as <-. injection B as <-. cbn [snd]. rewrite rank_healthy by (auto; lia). lia. }
  assert (A0 : allowed (Fac (fun i => match i with 0%nat => up ac 5 | _ => up ac 3 end) [0; 1]%nat false false) (FTick [1; 0]%nat)).
  { cbn [allowed fc_list fc_w]. apply (S1 (fun i => match i with 0%nat => up ac 5 | _ => up ac 3 end)); cbn; try lia; reflexivity. }
  split; [exact A0|]. cbn [all_allowed]. split; [exact A0|]. intros f1 H1. vm_compute in H1. injection H1 as <-.
  split; [intros X; vm_compute in X; discriminate X|]. intros f2 H2. vm_compute in H2. injection H2 as <-.
  split; [exact I|]. intros f3 H3. vm_compute in H3. injection H3 as <-.
  split. { cbn [allowed fc_list fc_w]. split; [apply perm_swap|]. intros i j a b LT A B.
    destruct i as [|[|i]]; destruct j as [|[|j]]; cbn [nth_error map] in A, B; try lia; try (destruct i; discriminate A); try (destruct j; discriminate B).
    injection A as <-. injection B as <-. vm_compute. reflexivity. }
  intros f4 H4. vm_compute in H4. injection H4 as <-. split; [exact I|]. auto.
Qed.
Example C75_size_case : forall ac,
  let f0 := Fac (fun _ => up ac 3) [0]%nat false false in
  match frun 0 f0 [FTick [0]%nat; FTry TNone; FTry (TMade (7%nat, up ac 0)); FTry (TMade (8%nat, up ac 0))] with
  | Ok fs => map (fun f => (fc_list f, fc_busy f)) fs
      = [([0], false); ([0], true); ([0], true); ([0; 7], false); ([0; 7], false)]%nat
  | _ => False end /\ within 0 f0.
Proof. intros ac. cbv zeta. split; [reflexivity|]. split; [cbn; lia|discriminate]. Qed.
Print Assumptions C75_exact.
Print Assumptions C75_never_more.
Print Assumptions C75_refills.
Print Assumptions C75_after_tick_partial.
Print Assumptions C75_refuted_busy.
Print Assumptions C75_refuted_stopped.
Print Assumptions C75_refuted_empty.
