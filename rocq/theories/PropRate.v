(** * PropRate: C71 (the throughput of an account is never exceeded, and a client that keeps to it is
    never refused). *)
From Coq Require Import Sorting.Sorted.
From Verif Require Import Base OptionsModel FrameModel SpecFrame PropFrame ServerModel SpecServer ServerProofs PropServer PropWindow PropAnswers RateModel.

(** Calls that passed in the time from [lo] to [hi]. *)
Definition passed (lo hi : Z) (out : list (Z * bool)) : Z :=
  zlen (filter (fun x => snd x && (lo <=? fst x) && (fst x <=? hi)) out).

(** ** The bucket *)
Definition fair (ev : Z) (l : limiter) : Prop := lm_ev l = Some ev /\ 0 < ev /\ 0 <= lm_burst l /\ 0 <= lm_credit l <= lm_burst l * ev.
Definition not_before (l : limiter) (t : Z) : Prop := match lm_last l with Some x => x <= t | None => True end.
Definition avail (l : limiter) (ev t : Z) : Z := snd (advance l ev t).
Lemma avail_range ev l t : fair ev l -> not_before l t -> 0 <= avail l ev t <= lm_burst l * ev.
Proof.
  intros (E & P & B & C) N. unfold avail, advance, not_before in *. destruct (lm_last l) as [x|]; cbn [snd]; [|nia]. replace (t <? x) with false by lia. nia.
Qed.
Lemma avail_grows ev l t t' : fair ev l -> not_before l t -> t <= t' -> avail l ev t' <= avail l ev t + (t' - t).
Proof.
  intros (E & P & B & C) N L. unfold avail, advance, not_before in *. destruct (lm_last l) as [x|]; cbn [snd]; [|nia]. replace (t <? x) with false by lia. replace (t' <? x) with false by lia. lia.
Qed.
(** One call, completely: it passes exactly if a whole period is in the bucket. *)
Lemma allow_spec ev l t : fair ev l -> not_before l t ->
  let '(b, l1) := Allow l t in
  fair ev l1 /\ lm_burst l1 = lm_burst l /\ not_before l1 t /\ (b = true <-> ev <= avail l ev t) /\ avail l1 ev t = avail l ev t - (if b then ev else 0).
Proof.
  intros F N. pose proof (avail_range ev l t F N) as A. destruct F as (E & P & B & C). unfold Allow. rewrite E. unfold avail in *. destruct (advance l ev t) as [last credit] eqn:D. cbn [snd] in *.
  destruct ((1 <=? lm_burst l) && (ev <=? credit)) eqn:G.
  - apply andb_true_iff in G as [G1 G2]. unfold fair, not_before, advance. cbn [lm_ev lm_burst lm_credit lm_last snd]. split; [repeat split; lia|]. split; [reflexivity|]. split; [lia|]. split; [split; [lia|reflexivity]|].
    rewrite Z.ltb_irrefl. lia.
  - assert (K : credit < ev). { apply andb_false_iff in G as [G|G]; [|lia]. assert (lm_burst l = 0) as G0 by lia. rewrite G0 in A. lia. }
    unfold fair, not_before. cbn [lm_ev lm_burst lm_credit lm_last]. split; [repeat split; lia|]. split; [reflexivity|].
    unfold advance in D |- *. unfold not_before in N. destruct (lm_last l) as [x|]; cbn [lm_last lm_burst lm_credit].
    + replace (t <? x) with false in D by lia. injection D as <- <-. split; [exact N|]. split; [split; [discriminate|lia]|]. replace (t <? x) with false by lia. cbn [snd]. lia.
    + injection D as <- <-. split; [exact I|]. split; [split; [discriminate|lia]|]. cbn [snd]. lia.
Qed.
Lemma passed_cons lo hi t b out : passed lo hi ((t, b) :: out) = (if b && (lo <=? t) && (t <=? hi) then 1 else 0) + passed lo hi out.
Proof. unfold passed. cbn [filter fst snd]. destruct (_ && _); unfold zlen; cbn [length]; lia. Qed.
Lemma passed_late lo hi l ts : Forall (fun t => hi < t) ts -> passed lo hi (fst (calls l ts)) = 0.
Proof.
  revert l. induction ts as [|t ts IH]; intros l H; [reflexivity|]. inversion H as [|x y H1 H2]; subst. cbn [calls]. destruct (Allow l t) as [b l1]. specialize (IH l1 H2). destruct (calls l1 ts) as [o l2]. cbn [fst] in *.
  rewrite passed_cons, IH. replace (t <=? hi) with false by lia. rewrite andb_false_r. reflexivity.
Qed.
Lemma bucket_within ev lo hi : forall ts l t0, fair ev l -> not_before l t0 -> t0 <= hi -> StronglySorted Z.le ts -> Forall (Z.le t0) ts ->
  passed lo hi (fst (calls l ts)) * ev <= avail l ev t0 + (hi - t0).
Proof.
  induction ts as [|t ts IH]; intros l t0 F N H0 S A.
  - pose proof (avail_range ev l t0 F N). unfold passed, zlen. cbn. lia.
  - inversion S as [|x y S1 S2]; subst. inversion A as [|x y A1 A2]; subst. destruct (Z.leb_spec t hi) as [L|L].
    + assert (N' : not_before l t) by (unfold not_before in *; destruct (lm_last l); lia). pose proof (allow_spec ev l t F N') as SP. cbn [calls]. destruct (Allow l t) as [b l1]. destruct SP as (F1 & B1 & N1 & _ & AV).
      specialize (IH l1 t F1 N1 L S1 S2). destruct (calls l1 ts) as [o l2]. cbn [fst] in *. rewrite passed_cons. pose proof (avail_grows ev l t0 t F N A1) as G. destruct F as (_ & P & _).
      destruct (b && (lo <=? t) && (t <=? hi)) eqn:B; [apply andb_true_iff in B as [B _]; apply andb_true_iff in B as [-> _]; lia|]. destruct b; lia.
    + rewrite passed_late; [pose proof (avail_range ev l t0 F N); lia|]. constructor; [lia|]. eapply Forall_impl; [|exact S2]. cbn. intros. lia.
Qed.
(** Whenever the calls come, within [hi - lo] not more pass than the bucket holds plus one for each
    period. *)
Theorem C71_bucket : forall ev burst ts lo hi, 0 < ev -> 0 <= burst -> lo <= hi -> StronglySorted Z.le ts ->
  passed lo hi (fst (calls (NewLimiter (Some ev) burst) ts)) <= burst + (hi - lo) / ev.
Proof.
  intros ev burst ts lo hi P B H S.
  assert (G : forall ts l, fair ev l -> StronglySorted Z.le ts -> (forall t, In t ts -> not_before l t) -> passed lo hi (fst (calls l ts)) * ev <= lm_burst l * ev + (hi - lo)).
  { clear ts S. induction ts as [|t ts IH]; intros l F S N; [unfold passed, zlen; cbn; destruct F as (_ & _ & ? & _); nia|]. assert (N' := N t (or_introl eq_refl)). destruct (Z.leb_spec lo t) as [L|L].
    - destruct (Z.leb_spec t hi) as [L2|L2].
      + pose proof (bucket_within ev lo hi (t :: ts) l t F N' L2 S) as W. inversion S; subst. specialize (W ltac:(constructor; [lia|assumption])). pose proof (avail_range ev l t F N'). lia.
      + rewrite passed_late; [destruct F as (_ & _ & ? & _); nia|]. inversion S as [|x y S1 S2]; subst. constructor; [lia|]. eapply Forall_impl; [|exact S2]. cbn. intros. lia.
    - pose proof (allow_spec ev l t F N') as SP. cbn [calls]. destruct (Allow l t) as [b l1]. destruct SP as (F1 & B1 & N1 & _). inversion S as [|x y S1 S2]; subst.
      specialize (IH l1 F1 S1). destruct (calls l1 ts) as [o l2]. cbn [fst] in *. rewrite passed_cons. replace (lo <=? t) with false by lia. rewrite andb_false_r. cbn [andb]. rewrite <- B1. apply IH.
      intros t' Ht. rewrite Forall_forall in S2. specialize (S2 t' Ht). unfold not_before in *. destruct (lm_last l1); lia. }
  specialize (G ts (NewLimiter (Some ev) burst)). unfold NewLimiter in *. cbn [lm_burst] in G. assert (F : fair ev (Lim (Some ev) burst 0 None)) by (unfold fair; cbn; repeat split; nia). specialize (G F S ltac:(intros; exact I)).
  set (n := passed lo hi _) in *. assert ((n - burst) * ev <= hi - lo) by lia. assert (n - burst <= (hi - lo) / ev) by (apply Z.div_le_lower_bound; lia). lia.
Qed.
(** The throughput of an account: if it divides a million, not more than its window and [Throughput]
    for each second pass. *)
Theorem C71_throughput_partial : forall ac ts lo hi, 0 < ac_Throughput ac -> (ac_Throughput ac | 1000000) -> 0 <= ac_MtWindowSize ac -> lo <= hi -> StronglySorted Z.le ts ->
  passed lo hi (fst (calls (setupLimiter ac) ts)) * 1000000000 <= ac_MtWindowSize ac * 1000000000 + ac_Throughput ac * (hi - lo).
Proof.
  intros ac ts lo hi T [q Q] W H S. unfold setupLimiter, server_period. replace (ac_Throughput ac =? 0) with false by lia.
  assert (E : Z.quot 1000000 (ac_Throughput ac) = q) by (rewrite Q; apply Z.quot_mul; lia). rewrite E.
  assert (QP : 0 < q) by nia. unfold Every. replace (q * 1000 <=? 0) with false by lia.
  pose proof (C71_bucket (q * 1000) (ac_MtWindowSize ac) ts lo hi ltac:(lia) W H S) as B. set (n := passed lo hi _) in *.
  pose proof (Z.mul_div_le (hi - lo) (q * 1000) ltac:(lia)) as D. set (d := (hi - lo) / (q * 1000)) in *.
  assert (X : (n - ac_MtWindowSize ac) * (q * 1000) <= hi - lo) by nia. nia.
Qed.
(** Without a configured throughput the limit is 100 for each second. *)
Theorem C71_default : forall ac ts lo hi, ac_Throughput ac = 0 -> 0 <= ac_MtWindowSize ac -> lo <= hi -> StronglySorted Z.le ts ->
  passed lo hi (fst (calls (setupLimiter ac) ts)) <= ac_MtWindowSize ac + (hi - lo) / 10000000.
Proof. intros ac ts lo hi T W H S. unfold setupLimiter, server_period. rewrite T. apply C71_bucket; auto; lia. Qed.

(** A call each period. *)
Fixpoint every (t ev : Z) (n : nat) : list Z := match n with O => [] | S k => t :: every (t + ev) ev k end.
Lemma spaced_pass ev : forall ts l, fair ev l -> 1 <= lm_burst l -> (match lm_last l with None => True | Some x => forall t r, ts = t :: r -> x + ev <= t end) ->
  (forall a b x y, ts = x ++ a :: b :: y -> a + ev <= b) -> Forall (fun x => snd x = true) (fst (calls l ts)).
Proof.
  induction ts as [|t ts IH]; intros l F B N G; [constructor|]. assert (N' : not_before l t). { unfold not_before. destruct (lm_last l) as [x|]; [|exact I]. specialize (N t ts eq_refl). destruct F as (_ & ? & _). lia. }
  pose proof (allow_spec ev l t F N') as SP. cbn [calls]. destruct (Allow l t) as [b l1] eqn:AL. destruct SP as (F1 & B1 & N1 & BT & AV).
  assert (AVL : ev <= avail l ev t). { destruct F as (E & P & B0 & C). unfold avail, advance. destruct (lm_last l) as [x|]; cbn [snd]; [|nia]. specialize (N t ts eq_refl). replace (t <? x) with false by lia. nia. }
  apply BT in AVL. subst b. specialize (IH l1 F1 ltac:(lia)). destruct (calls l1 ts) as [o l2]. cbn [fst] in *. constructor; [reflexivity|]. apply IH.
  - unfold not_before in N1. assert (LL : lm_last l1 = Some t). { unfold Allow in AL. rewrite (proj1 F) in AL. destruct (advance l ev t). destruct (_ && _); [injection AL as <-; reflexivity|discriminate AL]. }
    rewrite LL. intros t' r E. subst ts. apply (G t t' [] r). reflexivity.
  - intros a b x y E. apply (G a b (t :: x) y). rewrite E. reflexivity.
Qed.
(** A client whose submits are at least a period apart is never refused. *)
Theorem C71_served : forall ev burst ts, 0 < ev -> 1 <= burst -> (forall a b x y, ts = x ++ a :: b :: y -> a + ev <= b) ->
  Forall (fun x => snd x = true) (fst (calls (NewLimiter (Some ev) burst) ts)).
Proof.
  intros ev burst ts P B G. apply (spaced_pass ev ts); auto; [|exact I]. unfold fair, NewLimiter. cbn. repeat split; nia.
Qed.

Lemma every_range ev : 0 < ev -> forall n t x, In x (every t ev n) -> t <= x /\ x <= t + (Z.of_nat n - 1) * ev.
Proof. intros P. induction n as [|n IH]; intros t x H; [contradiction|]. cbn [every In] in H. destruct H as [<-|H]; [nia|]. apply IH in H. nia. Qed.
Lemma every_sorted ev : 0 < ev -> forall n t, StronglySorted Z.le (every t ev n).
Proof. intros P. induction n as [|n IH]; intros t; cbn [every]; constructor; auto. rewrite Forall_forall. intros x H. apply every_range in H; lia. Qed.
Lemma every_spaced ev : 0 < ev -> forall n t a b x y, every t ev n = x ++ a :: b :: y -> a + ev <= b.
Proof.
  intros P. induction n as [|n IH]; intros t a b x y E; [destruct x; discriminate|]. destruct x as [|z x]; cbn [every app] in E; injection E as E1 E2; [|eapply IH; exact E2].
  subst. destruct n; cbn [every] in E2; [discriminate|]. injection E2 as <- _. lia.
Qed.
Lemma passed_all lo hi out : Forall (fun x => snd x = true /\ lo <= fst x <= hi) out -> passed lo hi out = zlen out.
Proof. induction 1 as [|[t b] out [H1 H2] _ IH]; [reflexivity|]. rewrite passed_cons, IH. cbn [fst snd] in *. subst b. replace (lo <=? t) with true by lia. replace (t <=? hi) with true by lia. unfold zlen. cbn [andb length]. lia. Qed.
Lemma calls_fst : forall ts l, map fst (fst (calls l ts)) = ts.
Proof. induction ts as [|t ts IH]; intros l; [reflexivity|]. cbn [calls]. destruct (Allow l t) as [b l1]. specialize (IH l1). destruct (calls l1 ts). cbn [fst map] in *. congruence. Qed.
Lemma every_length ev : forall n t, length (every t ev n) = n.
Proof. induction n; intros; cbn; auto. Qed.
(** A throughput up to a million that does not divide a million is exceeded: the period is rounded
    down to whole microseconds, and a client that sends once a period gets more and more ahead of
    its limit. *)
Theorem C71_refuted_rate : forall ac, 0 < ac_Throughput ac <= 1000000 -> ~ (ac_Throughput ac | 1000000) -> 1 <= ac_MtWindowSize ac ->
  exists ts hi, StronglySorted Z.le ts /\ 0 <= hi /\
    ac_MtWindowSize ac * 1000000000 + ac_Throughput ac * (hi - 0) < passed 0 hi (fst (calls (setupLimiter ac) ts)) * 1000000000.
Proof.
  intros ac T ND W. set (m := 1000000 / ac_Throughput ac). assert (M : Z.quot 1000000 (ac_Throughput ac) = m) by (apply Z.quot_div_nonneg; lia).
  pose proof (Z.div_mod 1000000 (ac_Throughput ac) ltac:(lia)) as DM. fold m in DM. pose proof (Z.mod_pos_bound 1000000 (ac_Throughput ac) ltac:(lia)) as MB.
  assert (R : 1000000 mod ac_Throughput ac <> 0). { intros Z0. apply ND. exists m. lia. }
  assert (MP : 1 <= m) by (unfold m; apply Z.div_le_lower_bound; lia).
  set (ev := m * 1000). set (n := Z.to_nat (1 + 1000000000 * ac_MtWindowSize ac)). exists (every 0 ev n), ((Z.of_nat n - 1) * ev).
  assert (EP : 0 < ev) by lia. split; [apply every_sorted; exact EP|]. split; [unfold n; nia|].
  unfold setupLimiter, server_period. replace (ac_Throughput ac =? 0) with false by lia. rewrite M. fold ev. unfold Every. replace (ev <=? 0) with false by lia.
  rewrite passed_all.
  - assert (LN : zlen (fst (calls (NewLimiter (Some ev) (ac_MtWindowSize ac)) (every 0 ev n))) = Z.of_nat n).
    { unfold zlen. rewrite <- (map_length fst), calls_fst, every_length. reflexivity. }
    rewrite LN. assert (NN : Z.of_nat n = 1 + 1000000000 * ac_MtWindowSize ac) by (unfold n; lia). clearbody n. assert (G : ac_Throughput ac * ev <= 999999999) by nia.
    rewrite NN. replace (1 + 1000000000 * ac_MtWindowSize ac - 1) with (1000000000 * ac_MtWindowSize ac) by lia. rewrite Z.sub_0_r.
    replace (ac_Throughput ac * (1000000000 * ac_MtWindowSize ac * ev)) with (1000000000 * ac_MtWindowSize ac * (ac_Throughput ac * ev)) by ring. nia.
  - pose proof (C71_served ev (ac_MtWindowSize ac) (every 0 ev n) EP W (fun a b x y => every_spaced ev EP n 0 a b x y)) as SV. rewrite Forall_forall in *. intros x H. split; [apply SV; exact H|].
    assert (HI : In (fst x) (every 0 ev n)) by (rewrite <- (calls_fst (every 0 ev n) (NewLimiter (Some ev) (ac_MtWindowSize ac))); apply in_map; exact H). apply every_range in HI; lia.
Qed.
(** A throughput above a million, or a negative one, is no limit at all; the window does not matter. *)
Theorem C71_unlimited : forall ac ts, 1000000 < ac_Throughput ac \/ ac_Throughput ac < 0 -> Forall (fun x => snd x = true) (fst (calls (setupLimiter ac) ts)).
Proof.
  intros ac ts H. assert (E : Every (server_period (ac_Throughput ac)) = None).
  { unfold Every, server_period. replace (ac_Throughput ac =? 0) with false by lia. assert (Q : Z.quot 1000000 (ac_Throughput ac) <= 0).
    { destruct H as [H|H]; [rewrite Z.quot_small by lia; lia|]. replace (ac_Throughput ac) with (- - ac_Throughput ac) by lia. rewrite Z.quot_opp_r by lia. pose proof (Z.quot_pos 1000000 (- ac_Throughput ac) ltac:(lia) ltac:(lia)). lia. }
    replace (_ <=? 0) with true by lia. reflexivity. }
  unfold setupLimiter. rewrite E. induction ts as [|t ts IH]; [constructor|]. cbn [calls]. unfold Allow at 1. cbn [NewLimiter lm_ev]. fold (NewLimiter None (ac_MtWindowSize ac)). destruct (calls (NewLimiter None (ac_MtWindowSize ac)) ts). constructor; [reflexivity|exact IH].
Qed.
(** A window of size 0 lets nothing pass, whatever the (finite) throughput: every submit is refused. *)
Theorem C71_no_window : forall ac ts, 0 <= ac_Throughput ac <= 1000000 -> ac_MtWindowSize ac <= 0 -> Forall (fun x => snd x = false) (fst (calls (setupLimiter ac) ts)).
Proof.
  intros ac ts H W. assert (E : exists ev, Every (server_period (ac_Throughput ac)) = Some ev).
  { unfold Every, server_period. destruct (ac_Throughput ac =? 0) eqn:Z0; [eexists; reflexivity|]. rewrite Z.quot_div_nonneg by lia. assert (1 <= 1000000 / ac_Throughput ac) by (apply Z.div_le_lower_bound; lia).
    replace (_ <=? 0) with false by lia. eauto. }
  destruct E as [ev E]. unfold setupLimiter. rewrite E. assert (G : forall ts l, lm_ev l = Some ev -> lm_burst l <= 0 -> Forall (fun x => snd x = false) (fst (calls l ts))); [|apply G; auto].
  clear. induction ts as [|t ts IH]; intros l E W; [constructor|]. cbn [calls]. unfold Allow. rewrite E. destruct (advance l ev t) as [la cr]. replace (1 <=? lm_burst l) with false by lia. cbn [andb].
  match goal with |- context [calls ?x ts] => specialize (IH x eq_refl W); destruct (calls x ts) end. constructor; [reflexivity|exact IH].
Qed.

(** ** On the server's connection *)
(** The protocols' submit commands, and the submits a connection has accepted for processing. *)
Definition submit_command (p : proto) : Z := match p with P_CMPP => 4 | P_SGIP => 3 | P_SMGP => 2 end.
Definition is_accepted (p : proto) (o : obs) : bool := match o with OServe k false => pk_cmd k =? submit_command p | _ => false end.
Definition accepted (p : proto) (l : list obs) : Z := count (is_accepted p) l.
Lemma accepted_snoc p l o : accepted p (l ++ [o]) = accepted p l + (if is_accepted p o then 1 else 0).
Proof. unfold accepted. rewrite count_app, count_one. reflexivity. Qed.
Lemma accepted_close p c : accepted p (sc_log (OnClose c)) = accepted p (sc_log c).
Proof. unfold OnClose. destruct (negb _); [reflexivity|]. cbn [note sc_log]. rewrite accepted_snoc. cbn. change (sc_log (closeResource c)) with (sc_log c). lia. Qed.
Lemma last_close c : last_login (sc_log (OnClose c)) = last_login (sc_log c).
Proof. unfold OnClose. destruct (negb _); [reflexivity|]. cbn [note sc_log]. rewrite last_snoc. reflexivity. Qed.
(** A read event accepts a submit only if it asks the limiter and the answer is yes. *)
Lemma recv_accepts pr o seg c c' : on_recv pr o seg c = Ok c' ->
  last_login (sc_log c') = last_login (sc_log c) /\ logins (sc_log c') = logins (sc_log c) /\
  accepted (pr_p pr) (sc_log c') <= accepted (pr_p pr) (sc_log c) + (if asks_limiter pr seg c && o_lim o then 1 else 0).
Proof.
  intros E. apply on_recv_step in E. 
  assert (CL : forall d, logins (sc_log (OnClose d)) = logins (sc_log d)).
  { intros d. unfold OnClose. destruct (negb _); [reflexivity|]. cbn [note sc_log]. rewrite logins_snoc. cbn. change (sc_log (closeResource d)) with (sc_log d). lia. }
  destruct E as [O1|O1 F|O1 F|k rest O1 F N|k rest h a c1 O1 F Hin Hc HA]; try (split; [reflexivity|split; [reflexivity|]]; cbn [with_buf sc_log]; destruct (_ && _); lia).
  - rewrite last_close, accepted_close, CL. split; [reflexivity|split; [reflexivity|]]. cbn [with_buf sc_log]. destruct (_ && _); lia.
  - assert (X : last_login (sc_log c1) = last_login (sc_log c) /\ logins (sc_log c1) = logins (sc_log c) /\ accepted (pr_p pr) (sc_log c1) <= accepted (pr_p pr) (sc_log c) + (if asks_limiter pr seg c && o_lim o then 1 else 0)).
    { unfold asks_limiter. rewrite O1, F. cbn [andb]. inversion HA; subst; cbn [spawn with_tasks note sc_log]; rewrite ?last_snoc, ?logins_snoc, ?accepted_snoc; cbn [is_login is_accepted];
        (split; [reflexivity|]; split; [lia|]); try (destruct (_ && o_lim o); lia).
      - rewrite Hc, Z.eqb_refl. unfold sessionCheck. repeat match goal with H : se_stat _ = _ |- _ => rewrite H | H : decode_submit _ _ _ = _ |- _ => rewrite H | H : se_res _ = _ |- _ => rewrite H | H : o_lim _ = _ |- _ => rewrite H end. cbn [andb]. destruct (_ =? _); lia.
      - replace (pk_cmd k =? submit_command (pr_p pr)) with false; [destruct (_ && o_lim o); lia|]. symmetry. apply Z.eqb_neq. rewrite <- Hc. destruct (pr_p pr), h; cbn; try congruence; lia. }
    destruct a; cbn [closing]; [exact X|]. rewrite last_close, accepted_close, CL. exact X.
Qed.
(** The limiter belongs to the account of the last login. *)
Definition paired (s : sconn * limiter) (t : Z) : Prop :=
  forall a, last_login (sc_log (fst s)) = Some a ->
    0 <= ac_MtWindowSize a /\ lm_burst (snd s) = ac_MtWindowSize a /\ lm_ev (snd s) = Every (server_period (ac_Throughput a)) /\
    forall ev, lm_ev (snd s) = Some ev -> fair ev (snd s) /\ not_before (snd s) t.
Lemma paired_later s t t' : paired s t -> t <= t' -> paired s t'.
Proof. intros P L a H. destruct (P a H) as (P1 & P2 & P3 & P4). split; [exact P1|]. split; [exact P2|]. split; [exact P3|]. intros ev E. destruct (P4 ev E) as [F N]. split; [exact F|]. unfold not_before in *. destruct (lm_last (snd s)); lia. Qed.
Lemma every_pos x ev : Every x = Some ev -> 0 < ev. Proof. unfold Every. destruct (x <=? 0) eqn:E; [discriminate|]. intros H. injection H as <-. lia. Qed.
Lemma lstep_spec pr s e s' t : lstep pr s e = Ok s' -> paired s t -> t <= o_now (snd e) ->
  paired s' (o_now (snd e)) /\ logins (sc_log (fst s)) <= logins (sc_log (fst s')) /\
  (logins (sc_log (fst s')) = logins (sc_log (fst s)) ->
     last_login (sc_log (fst s')) = last_login (sc_log (fst s)) /\
     forall a ev, last_login (sc_log (fst s)) = Some a -> lm_ev (snd s) = Some ev ->
       lm_ev (snd s') = Some ev /\
       (accepted (pr_p pr) (sc_log (fst s')) - accepted (pr_p pr) (sc_log (fst s))) * ev <= avail (snd s) ev (o_now (snd e)) - avail (snd s') ev (o_now (snd e))).
Proof.
  destruct s as [c l], e as [k o], s' as [c' l']. cbn [fst snd]. intros E P T. cbn [lstep] in E. pose proof (paired_later _ _ _ P T) as P'. 
  assert (SAME : forall c1, sc_log c1 = sc_log c -> @Ok (sconn * limiter) (c1, l) = Ok (c', l') -> paired (c', l') (o_now o) /\ logins (sc_log c) <= logins (sc_log c') /\
    (logins (sc_log c') = logins (sc_log c) -> last_login (sc_log c') = last_login (sc_log c) /\ forall a ev, last_login (sc_log c) = Some a -> lm_ev l = Some ev -> lm_ev l' = Some ev /\
      (accepted (pr_p pr) (sc_log c') - accepted (pr_p pr) (sc_log c)) * ev <= avail l ev (o_now o) - avail l' ev (o_now o))).
  { intros c1 L EQ. injection EQ as <- <-. split; [intros a Ha; cbn [fst] in Ha; rewrite L in Ha; apply (P' a Ha)|]. rewrite L. split; [lia|]. intros _. split; [reflexivity|]. intros a ev _ Hev. split; [exact Hev|]. nia. }
  destruct k as [seg|i| | |].
  - destruct (Allow l (o_now o)) as [b l1] eqn:AL. apply bind_ok in E as (c1 & E & EE). injection EE as -> EL. cbn [step] in E. apply recv_accepts in E as (L1 & L2 & L3). cbn [set_lim o_lim] in L3.
    rewrite L1, L2. assert (STEP : forall a, last_login (sc_log c) = Some a -> 
      lm_burst l' = ac_MtWindowSize a /\ lm_ev l' = lm_ev l /\ forall ev, lm_ev l = Some ev -> fair ev l' /\ not_before l' (o_now o) /\ (if asks_limiter pr seg c && b then 1 else 0) * ev <= avail l ev (o_now o) - avail l' ev (o_now o)).
    { intros a Ha. destruct (P' a Ha) as (P1 & P2 & P3 & P4). cbn [snd] in *. destruct (asks_limiter pr seg c); subst l'.
      - cbn [andb]. destruct (lm_ev l) as [ev|] eqn:Ev.
        + destruct (P4 ev eq_refl) as [F N]. pose proof (allow_spec ev l (o_now o) F N) as SP. rewrite AL in SP. destruct SP as (F1 & B1 & N1 & _ & AV). split; [congruence|]. split; [apply F1|]. intros ev' EE. injection EE as <-. split; [exact F1|]. split; [exact N1|]. rewrite AV. destruct b; lia.
        + unfold Allow in AL. rewrite Ev in AL. injection AL as <- <-. split; [congruence|]. split; [exact Ev|]. intros ev' EE. discriminate EE.
      - cbn [andb]. split; [congruence|]. split; [reflexivity|]. intros ev Hev. destruct (P4 ev Hev) as [F N]. split; [exact F|]. split; [exact N|]. lia. }
    split; [|split; [lia|]].
    + intros a Ha. cbn [fst snd] in *. rewrite L1 in Ha. destruct (STEP a Ha) as (S1 & S2 & S3). destruct (P' a Ha) as (P1 & P2 & P3 & P4). cbn [snd] in *. split; [exact P1|]. split; [exact S1|]. split; [congruence|]. intros ev Hev. rewrite S2 in Hev. destruct (S3 ev Hev) as (X1 & X2 & _). auto.
    + intros _. split; [reflexivity|]. intros a ev Ha Hev. destruct (STEP a Ha) as (S1 & S2 & S3). destruct (S3 ev Hev) as (X1 & X2 & X3). split; [congruence|]. destruct X1 as (_ & PE & _). nia.
  - apply bind_ok in E as (c1 & E & EE). cbn [step] in E. injection E as <-. apply (SAME _ (task_log pr o i c)). exact EE.
  - apply bind_ok in E as (c1 & E & EE). cbn [step] in E. unfold on_write in E. unfold new_login in EE. destruct (sc_open c) eqn:O; [|injection E as <-; apply (SAME c eq_refl); exact EE].
    destruct (sc_queue c) as [|[[kd bb] f] r] eqn:Q; [injection E as <-; apply (SAME c eq_refl); exact EE|].
    assert (NOTE : forall c1, sc_log c1 = sc_log c ++ [OOut kd bb] -> @Ok (sconn * limiter) (c1, l) = Ok (c', l') -> paired (c', l') (o_now o) /\ logins (sc_log c) <= logins (sc_log c') /\
      (logins (sc_log c') = logins (sc_log c) -> last_login (sc_log c') = last_login (sc_log c) /\ forall a ev, last_login (sc_log c) = Some a -> lm_ev l = Some ev -> lm_ev l' = Some ev /\
        (accepted (pr_p pr) (sc_log c') - accepted (pr_p pr) (sc_log c)) * ev <= avail l ev (o_now o) - avail l' ev (o_now o))).
    { intros c2 L EQ. injection EQ as <- <-. split; [intros a Ha; cbn [fst] in Ha; rewrite L, last_snoc in Ha; apply (P' a Ha)|]. rewrite L, logins_snoc, last_snoc, accepted_snoc. cbn [is_login is_accepted]. split; [lia|]. intros _. split; [reflexivity|]. intros a ev _ Hev. split; [exact Hev|]. nia. }
    destruct f as [k code ac|code| | | | | | ]; cbn [callback] in E; try (injection E as <-; refine (NOTE _ _ EE); reflexivity).
    + destruct ac as [ac|]; destruct (code =? 0); try discriminate E; try (injection E as <-; refine (NOTE _ _ EE); reflexivity).
      apply bind_ok in E as (c2 & E2 & E). injection E as <-. unfold completeLogin in E2. destruct (_ <? 0) eqn:WN; [discriminate|]. injection E2 as <-. injection EE as <- <-.
      cbn [note sc_log with_chans with_sess closeResource with_queue]. split; [|split].
      * intros a Ha. cbn [fst snd sc_log note with_chans with_sess closeResource with_queue] in *. rewrite last_snoc in Ha. injection Ha as <-. unfold setupLimiter, NewLimiter. cbn [lm_burst lm_ev]. split; [lia|]. split; [reflexivity|]. split; [reflexivity|]. intros ev Hev.
        pose proof (every_pos _ _ Hev). unfold fair, not_before. cbn [lm_ev lm_burst lm_credit lm_last]. rewrite Hev. repeat split; nia.
      * rewrite logins_snoc, logins_snoc. cbn [is_login]. lia.
      * rewrite logins_snoc, logins_snoc. cbn [is_login]. lia.
    + injection E as <-. destruct (code =? 0); refine (NOTE _ _ EE); reflexivity.
  - apply bind_ok in E as (c1 & E & EE). cbn [step] in E. injection E as <-. apply (SAME _ (tick_log pr o c)). exact EE.
  - apply bind_ok in E as (c1 & E & EE). cbn [step] in E. injection E as <-. injection EE as <- <-.
    assert (CL : logins (sc_log (OnClose c)) = logins (sc_log c)). { unfold OnClose. destruct (negb _); [reflexivity|]. cbn [note sc_log]. rewrite logins_snoc. cbn. change (sc_log (closeResource c)) with (sc_log c). lia. }
    split; [intros a Ha; cbn [fst] in Ha; rewrite last_close in Ha; apply (P' a Ha)|]. rewrite CL, last_close, accepted_close. split; [lia|]. intros _. split; [reflexivity|]. intros a ev _ Hev. split; [exact Hev|]. nia.
Qed.
Definition times (es : list (event * orc)) : list Z := map (fun e => o_now (snd e)) es.
Lemma lrun_paired pr : forall es s t s', lrun pr s es = Ok s' -> paired s t -> StronglySorted Z.le (times es) -> Forall (Z.le t) (times es) ->
  exists t', paired s' t' /\ (t' = t \/ In t' (times es)).
Proof.
  induction es as [|e es IH]; intros s t s' E P S A; cbn [lrun] in E; [injection E as <-; eauto|].
  apply bind_ok in E as (s1 & E1 & E2). cbn [times map] in S, A. inversion S as [|x y S1 S2]; subst. inversion A as [|x y A1 A2]; subst.
  destruct (lstep_spec _ _ _ _ _ E1 P A1) as (P1 & _). destruct (IH s1 _ s' E2 P1 S1 S2) as (t' & P2 & H). exists t'. split; [exact P2|]. right. cbn [times map In]. destruct H as [->|H]; auto.
Qed.
Lemma lrun_logins pr : forall es s t s', lrun pr s es = Ok s' -> paired s t -> StronglySorted Z.le (times es) -> Forall (Z.le t) (times es) -> logins (sc_log (fst s)) <= logins (sc_log (fst s')).
Proof.
  induction es as [|e es IH]; intros s t s' E P S A; cbn [lrun] in E; [injection E as <-; lia|].
  apply bind_ok in E as (s1 & E1 & E2). cbn [times map] in S, A. inversion S as [|x y S1 S2]; subst. inversion A as [|x y A1 A2]; subst.
  destruct (lstep_spec _ _ _ _ _ E1 P A1) as (P1 & L & _). specialize (IH s1 _ s' E2 P1 S1 S2). lia.
Qed.
Lemma lrun_within pr a ev hi : forall es s t s', lrun pr s es = Ok s' -> paired s t -> StronglySorted Z.le (times es) -> Forall (Z.le t) (times es) -> Forall (fun x => x <= hi) (times es) -> t <= hi ->
  logins (sc_log (fst s')) = logins (sc_log (fst s)) -> last_login (sc_log (fst s)) = Some a -> lm_ev (snd s) = Some ev ->
  (accepted (pr_p pr) (sc_log (fst s')) - accepted (pr_p pr) (sc_log (fst s))) * ev <= avail (snd s) ev t + (hi - t).
Proof.
  induction es as [|e es IH]; intros s t s' E P S A H T L La Ev; cbn [lrun] in E.
  - injection E as <-. destruct (P a La) as (_ & _ & _ & P4). destruct (P4 ev Ev) as [F N]. pose proof (avail_range ev (snd s) t F N). lia.
  - apply bind_ok in E as (s1 & E1 & E2). cbn [times map] in S, A, H. inversion S as [|x y S1 S2]; subst. inversion A as [|x y A1 A2]; subst. inversion H as [|x y H1 H2]; subst.
    destruct (lstep_spec _ _ _ _ _ E1 P A1) as (P1 & L1 & K). pose proof (lrun_logins pr es s1 _ s' E2 P1 S1 S2) as L2. destruct (K ltac:(lia)) as [La1 K2]. destruct (K2 a ev La Ev) as [Ev1 B].
    specialize (IH s1 _ s' E2 P1 S1 S2 H2 H1 ltac:(lia) ltac:(congruence) Ev1). destruct (P a La) as (_ & _ & _ & P4). destruct (P4 ev Ev) as [F N]. pose proof (avail_grows ev (snd s) t (o_now (snd e)) F N A1). lia.
Qed.
(** On one connection, between two logins: whatever arrives, in any time from [lo] to [hi] at most
    the window and one submit for each period are accepted. *)
Theorem C71_connection_partial : forall pr now l0 es1 es2 s1 s2 a lo hi,
  lrun pr (opened now, l0) es1 = Ok s1 -> lrun pr s1 es2 = Ok s2 -> StronglySorted Z.le (times (es1 ++ es2)) ->
  Forall (fun e => lo <= o_now (snd e) <= hi) es2 -> lo <= hi ->
  last_login (sc_log (fst s1)) = Some a -> logins (sc_log (fst s2)) = logins (sc_log (fst s1)) -> 0 <= ac_Throughput a <= 1000000 ->
  accepted (pr_p pr) (sc_log (fst s2)) - accepted (pr_p pr) (sc_log (fst s1)) <= ac_MtWindowSize a + (hi - lo) / server_period (ac_Throughput a).
Proof.
  intros pr now l0 es1 es2 s1 s2 a lo hi E1 E2 S W LH La Lg TH.
  assert (EV : exists ev, server_period (ac_Throughput a) = ev /\ 0 < ev /\ Every (server_period (ac_Throughput a)) = Some ev).
  { unfold Every, server_period. destruct (ac_Throughput a =? 0) eqn:Z0; [exists 10000000; repeat split; lia|]. rewrite Z.quot_div_nonneg by lia. assert (1 <= 1000000 / ac_Throughput a) by (apply Z.div_le_lower_bound; lia).
    replace (_ <=? 0) with false by lia. eexists. repeat split. lia. }
  destruct EV as (ev & EV & EP & EE). rewrite EV in *.
  assert (ST : StronglySorted Z.le (times es1) /\ StronglySorted Z.le (times es2) /\ forall x y, In x (times es1) -> In y (times es2) -> x <= y).
  { unfold times in *. rewrite map_app in S. clear -S. induction (map (fun e : event * orc => o_now (snd e)) es1) as [|x l IH]; cbn [app] in S; [split; [constructor|]; split; [exact S|]; intros ? ? []|].
    inversion S as [|u v S1 S2]; subst. destruct (IH S1) as (A & B & C). rewrite Forall_app in S2. destruct S2 as [S2 S3]. split; [constructor; auto|]. split; [exact B|]. intros x0 y [<-|H] Hy; [rewrite Forall_forall in S3; auto|auto]. }
  destruct ST as (T1 & T2 & T3).
  destruct es2 as [|e2 es2]; [cbn [lrun] in E2; injection E2 as <-; replace (_ - _) with 0 by lia|].
  - assert (P0 : 0 <= (hi - lo) / ev) by (apply Z.div_pos; lia). destruct es1 as [|e1 es1]; [cbn [lrun] in E1; injection E1 as <-; discriminate La|].
    cbn [times map] in T1. assert (PA : paired (opened now, l0) (o_now (snd e1))) by (intros x Hx; discriminate Hx).
    destruct (lrun_paired pr (e1 :: es1) _ (o_now (snd e1)) s1 E1 PA T1) as (t' & P & _); [inversion T1; subst; constructor; [lia|assumption]|]. destruct (P a La) as (P1 & _). lia.
  - set (t0 := o_now (snd e2)). pose proof (Forall_inv W) as W1. cbv beta in W1. fold t0 in W1.
    assert (P : paired s1 t0). { destruct es1 as [|e1 es1]; [cbn [lrun] in E1; injection E1 as <-; discriminate La|]. assert (PA : paired (opened now, l0) (o_now (snd e1))) by (intros x Hx; discriminate Hx).
      destruct (lrun_paired pr (e1 :: es1) _ (o_now (snd e1)) s1 E1 PA T1) as (t' & P & I); [cbn [times map] in T1; inversion T1; subst; constructor; [lia|assumption]|]. apply (paired_later s1 t'); [exact P|].
      apply T3; [destruct I as [->|I]; [left; reflexivity|exact I]|left; reflexivity]. }
    destruct (P a La) as (P1 & P2 & P3 & P4). assert (P5 : lm_ev (snd s1) = Some ev) by (rewrite P3, EV; exact EE). clear P3. rename P5 into P3. destruct (P4 ev P3) as [F N].
    pose proof (lrun_within pr a ev hi (e2 :: es2) s1 t0 s2 E2 P T2) as B.
    assert (A2 : Forall (Z.le t0) (times (e2 :: es2))) by (cbn [times map] in *; inversion T2; subst; constructor; [lia|assumption]).
    assert (H2 : Forall (fun x => x <= hi) (times (e2 :: es2))). { unfold times. rewrite Forall_map. eapply Forall_impl; [|exact W]. cbn. intros. lia. }
    specialize (B A2 H2 ltac:(lia) Lg La P3). pose proof (avail_range ev (snd s1) t0 F N) as AR. rewrite P2 in AR.
    set (n := accepted _ _ - accepted _ _) in *. assert ((n - ac_MtWindowSize a) * ev <= hi - lo) by nia. assert (n - ac_MtWindowSize a <= (hi - lo) / ev) by (apply Z.div_le_lower_bound; lia). lia.
Qed.

(** A further login on the same connection makes a new, full bucket: alternating logins and submits,
    any number of submits is accepted in one instant. *)
Definition again (i : nat) : list (event * orc) := map (fun e => (e, orc1)) [ERecv login_demo; ETask i; EWrite; ERecv submit_bytes].
Definition the_packet (b : bytes) : packet := match DecodeAndCheckHeader P_CMPP true b with Ok (FPass k _) => k | _ => Packet 0 0 [] end.
Definition login_pk : packet := the_packet login_demo.
Definition login_rq : lreq := get (LCmpp (CmppModel.Connect (CmppModel.CHead 0 0 0) [] [] 0 0 [])) (decode_login P_CMPP login_pk).
Definition submit_task : list task := match decode_submit pr_one 48 submit_pk with Ok r => [(JSubmit submit_pk r, PStart)] | _ => [] end.
Definition login_item : list (okind * bytes * cb) := match handle_login pr_one orc1 login_pk login_rq (opened 0) with Ok c => sc_queue c | _ => [] end.
Lemma del_last {A} (l : list A) a : del (l ++ [a]) (length l) = l.
Proof. unfold del. rewrite firstn_app, Nat.sub_diag, firstn_all, app_nil_r, skipn_all2 by (rewrite app_length; cbn; lia). apply app_nil_r. Qed.
Lemma lrun_app pr : forall es s fs, lrun pr s (es ++ fs) = (s1 <- lrun pr s es ;; lrun pr s1 fs).
Proof. induction es as [|e es IH]; intros s fs; [reflexivity|]. cbn [app lrun]. destruct (lstep pr s e); cbn [bind]; auto. Qed.
Definition ready (c : sconn) : Prop := sc_open c = true /\ sc_buf c = [] /\ sc_queue c = [] /\ se_conn (sc_sess c) = true.
Lemma again_ok c l : ready c -> exists c' l', lrun pr_one (c, l) (again (length (sc_tasks c))) = Ok (c', l') /\ ready c' /\ length (sc_tasks c') = S (length (sc_tasks c)) /\
  accepted P_CMPP (sc_log c') = accepted P_CMPP (sc_log c) + 1.
Proof.
  intros (O & B & Q & N). destruct c as [buf op s ch ts q w lg]. cbn [sc_open sc_buf sc_queue sc_sess sc_tasks sc_log] in *. subst buf op q.
  destruct s as [st ver cid nAt la win rs cn mt dl rp]. cbn [se_conn] in N. subst cn.
  set (c := SConn [] true (Sess st ver cid nAt la win rs true mt dl rp) ch ts [] w lg). unfold again. cbn [map lrun].
  assert (S1 : lstep pr_one (c, l) (ERecv login_demo, orc1) = Ok (spawn (note c (OGot login_pk)) (JLogin login_pk login_rq), l)).
  { unfold lstep. destruct (Allow l (o_now orc1)) as [b l1]. replace (asks_limiter pr_one login_demo c) with false by (destruct st; vm_compute; reflexivity). 
    replace (step pr_one c (ERecv login_demo, set_lim orc1 b)) with (Ok (spawn (note c (OGot login_pk)) (JLogin login_pk login_rq))) by (destruct b; vm_compute; reflexivity). reflexivity. }
  rewrite S1. cbn [bind]. set (c1 := note c (OGot login_pk)).
  assert (S2 : lstep pr_one (spawn c1 (JLogin login_pk login_rq), l) (ETask (length ts), orc1) = Ok (with_queue c1 login_item, l)).
  { unfold lstep. cbn [step bind]. unfold on_task. cbn [spawn with_tasks sc_tasks c1 c note]. rewrite nth_error_app2, Nat.sub_diag by lia. cbn [nth_error plain_job].
    match goal with |- context [handle_login pr_one orc1 login_pk login_rq ?x] => replace (handle_login pr_one orc1 login_pk login_rq x) with (Ok (with_queue x login_item)) by (vm_compute; reflexivity) end.
    change (sc_tasks (with_queue (spawn c1 (JLogin login_pk login_rq)) login_item)) with (ts ++ [(JLogin login_pk login_rq, PStart)]). rewrite del_last. reflexivity. }
  rewrite S2. cbn [bind]. 
  set (c3 := match on_write orc1 (with_queue c1 login_item) with Ok x => x | _ => c1 end).
  assert (S3 : lstep pr_one (with_queue c1 login_item, l) (EWrite, orc1) = Ok (c3, setupLimiter ac_one)) by reflexivity.
  rewrite S3. cbn [bind].
  assert (S4 : lstep pr_one (c3, setupLimiter ac_one) (ERecv submit_bytes, orc1) = Ok (with_tasks (note (note c3 (OGot submit_pk)) (OServe submit_pk false)) (ts ++ submit_task), snd (Allow (setupLimiter ac_one) 5))) by (vm_compute; reflexivity).
  rewrite S4. cbn [bind]. eexists. eexists. split; [reflexivity|]. split; [repeat split|]. split.
  - cbn [with_tasks sc_tasks]. rewrite app_length. change (length submit_task) with 1%nat. unfold c. cbn [sc_tasks]. lia.
  - cbn [with_tasks note sc_log]. rewrite accepted_snoc, accepted_snoc. change (sc_log c3) with (((lg ++ [OGot login_pk]) ++ [match login_item with [(k, b, _)] => OOut k b | _ => OClose end]) ++ [OLogin login_pk ac_one]). rewrite !accepted_snoc. vm_compute (is_accepted _ _). cbv iota. unfold c. cbn [sc_log]. lia.
Qed.
Theorem C71_refuted_relogin : forall n, exists es s, lrun pr_one (opened 0, NewLimiter None 0) es = Ok s /\ Forall (fun e => o_now (snd e) = 5) es /\ accepted P_CMPP (sc_log (fst s)) = Z.of_nat n /\
  ac_MtWindowSize ac_one + (5 - 5) / server_period (ac_Throughput ac_one) = 1.
Proof.
  intros n. enough (H : exists es s, lrun pr_one (opened 0, NewLimiter None 0) es = Ok s /\ Forall (fun e => o_now (snd e) = 5) es /\ accepted P_CMPP (sc_log (fst s)) = Z.of_nat n /\ ready (fst s) /\ length (sc_tasks (fst s)) = n).
  { destruct H as (es & s & E & F & A & _). exists es, s. repeat (split; auto). }
  induction n as [|n (es & [c l] & E & F & A & R & L)].
  - exists [], (opened 0, NewLimiter None 0). repeat split. constructor.
  - cbn [fst] in *. destruct (again_ok c l R) as (c' & l' & E' & R' & L' & A'). exists (es ++ again (length (sc_tasks c))), (c', l'). rewrite lrun_app, E. cbn [bind]. split; [exact E'|]. split.
    + apply Forall_app. split; [exact F|]. unfold again. cbn [map]. repeat constructor.
    + cbn [fst]. split; [rewrite A', A; lia|]. split; [exact R'|]. rewrite L'. lia.
Qed.

(** ** C76: the client's settings *)
(** What the settings say, where a missing setting reads as 0: the default window is 16 and the default throughput 100. *)
Definition meant_window (winSize : Z) : Z := if winSize =? 0 then 16 else winSize.
(** If the window size is configured, the client hands out sessions within its limits. *)
Theorem C76_configured_partial : forall maxConns winSize throughput, 0 < maxConns -> 0 < winSize -> throughput <= 1000000 ->
  exists l, client_limiter maxConns winSize throughput = Ok l /\
  forall ts lo hi, lo <= hi -> StronglySorted Z.le ts ->
    passed lo hi (fst (calls l ts)) <= meant_window winSize + (hi - lo) / client_period throughput /\
    (forall t r, ts = t :: r -> hd (0, false) (fst (calls l ts)) = (t, true)).
Proof.
  intros maxConns winSize throughput M W T. unfold client_limiter, client_window. replace (0 <? maxConns) with true by lia. replace (winSize <? 0) with false by lia. cbn [bind].
  assert (P : 0 < client_period throughput). { unfold client_period. destruct (0 <? throughput) eqn:Z0; [|lia]. rewrite Z.quot_div_nonneg by lia. assert (1 <= 1000000 / throughput) by (apply Z.div_le_lower_bound; lia). lia. }
  unfold Every. replace (client_period throughput <=? 0) with false by lia. eexists. split; [reflexivity|]. intros ts lo hi H S. split.
  - unfold meant_window. replace (winSize =? 0) with false by lia. apply C71_bucket; auto; lia.
  - intros t r ->. cbn [calls]. unfold Allow. cbn [NewLimiter lm_ev lm_last lm_burst advance]. replace (1 <=? winSize) with true by lia. replace (client_period throughput <=? winSize * client_period throughput) with true by nia. cbn [andb].
    destruct (calls _ r). reflexivity.
Qed.
(** A missing window size with a configured number of connections: the test of the wrong variable
    gives a window of 0 and nothing is ever sent. *)
Theorem C76_refuted : forall maxConns throughput, 0 < maxConns -> throughput <= 1000000 ->
  exists l, client_limiter maxConns 0 throughput = Ok l /\ forall ts, Forall (fun x => snd x = false) (fst (calls l ts)).
Proof.
  intros maxConns throughput M T. unfold client_limiter, client_window. replace (0 <? maxConns) with true by lia. cbn [Z.ltb Z.compare bind].
  assert (P : 0 < client_period throughput). { unfold client_period. destruct (0 <? throughput) eqn:Z0; [|lia]. rewrite Z.quot_div_nonneg by lia. assert (1 <= 1000000 / throughput) by (apply Z.div_le_lower_bound; lia). lia. }
  unfold Every. replace (client_period throughput <=? 0) with false by lia. eexists. split; [reflexivity|]. intros ts.
  assert (G : forall ts l, lm_ev l = Some (client_period throughput) -> lm_burst l <= 0 -> Forall (fun x => snd x = false) (fst (calls l ts))); [|apply G; cbn; auto; lia].
  clear. induction ts as [|t ts IH]; intros l E W; [constructor|]. cbn [calls]. unfold Allow. rewrite E. destruct (advance l _ t) as [la cr]. replace (1 <=? lm_burst l) with false by lia. cbn [andb].
  match goal with |- context [calls ?x ts] => specialize (IH x eq_refl W); destruct (calls x ts) end. constructor; [reflexivity|exact IH].
Qed.
(** The other way round: without max-conns the configured window size is ignored: 16 sessions are
    handed out in one instant, whatever window was configured. *)
Lemma burst_at_once : forall k l ev t, lm_ev l = Some ev -> 0 < ev -> lm_last l = Some t -> Z.of_nat k * ev <= lm_credit l <= lm_burst l * ev -> 1 <= lm_burst l ->
  Forall (fun x => snd x = true) (fst (calls l (repeat t k))).
Proof.
  induction k as [|k IH]; intros l ev t E P L C B; [constructor|]. cbn [repeat calls]. unfold Allow, advance. rewrite E, L. replace (t <? t) with false by lia.
  replace (lm_credit l + (t - t)) with (lm_credit l) by lia. rewrite Z.min_r by lia. replace (1 <=? lm_burst l) with true by lia. replace (ev <=? lm_credit l) with true by nia. cbn [andb].
  match goal with |- context [calls ?x _] => assert (H : Forall (fun y => snd y = true) (fst (calls x (repeat t k)))) by (apply (IH x ev t); cbn [lm_ev lm_last lm_credit lm_burst]; auto; nia); destruct (calls x (repeat t k)) end.
  constructor; [reflexivity|exact H].
Qed.
Theorem C76_refuted_ignored : forall maxConns w throughput t, maxConns <= 0 -> throughput <= 1000000 ->
  exists l, client_limiter maxConns w throughput = Ok l /\ Forall (fun x => snd x = true) (fst (calls l (repeat t 16))).
Proof.
  intros maxConns w throughput t M T. unfold client_limiter, client_window. replace (0 <? maxConns) with false by lia. cbn [bind].
  assert (P : 0 < client_period throughput). { unfold client_period. destruct (0 <? throughput) eqn:Z0; [|lia]. rewrite Z.quot_div_nonneg by lia. assert (1 <= 1000000 / throughput) by (apply Z.div_le_lower_bound; lia). lia. }
  unfold Every. replace (client_period throughput <=? 0) with false by lia. eexists. split; [reflexivity|].
  change (repeat t 16) with (t :: repeat t 15). cbn [calls]. unfold Allow. cbn [NewLimiter lm_ev lm_last lm_burst advance]. replace (1 <=? 16) with true by lia. replace (client_period throughput <=? 16 * client_period throughput) with true by nia. cbn [andb].
  match goal with |- context [calls ?x _] => assert (H : Forall (fun y => snd y = true) (fst (calls x (repeat t 15)))) by (apply (burst_at_once 15 x (client_period throughput) t); cbn [lm_ev lm_last lm_credit lm_burst]; auto; try nia; lia); destruct (calls x (repeat t 15)) end.
  constructor; [reflexivity|exact H].
Qed.

(** A window of one and a period of 10 ms: of calls at 0, 3, 10, 25 and 26 ms the second and the last
    are refused. *)
Example C71_case : fst (calls (setupLimiter ac_one) [0; 3000000; 10000000; 25000000; 26000000]) = [(0, true); (3000000, false); (10000000, true); (25000000, true); (26000000, false)]
  /\ passed 0 10000000 (fst (calls (setupLimiter ac_one) [0; 3000000; 10000000; 25000000; 26000000])) = 2 /\ server_period (ac_Throughput ac_one) = 10000000
  /\ (ac_Throughput ac_one | 1000000) /\ ~ (300 | 1000000) /\ server_period 300 = 3333000.
Proof. split; [reflexivity|]. split; [reflexivity|]. split; [reflexivity|]. split; [exists 10000; reflexivity|]. split; [intros [q H]; lia|reflexivity]. Qed.
(** The connection: login at 5, one submit accepted at 5, the next refused. *)
Example C71_conn_case : match lrun pr_one (opened 0, NewLimiter None 0) login_events with
  | Ok s1 => last_login (sc_log (fst s1)) = Some ac_one /\
    match lrun pr_one s1 [(ERecv submit_bytes, orc1); (ERecv submit_bytes, orc1)] with
    | Ok s2 => logins (sc_log (fst s2)) = logins (sc_log (fst s1)) /\ accepted P_CMPP (sc_log (fst s2)) - accepted P_CMPP (sc_log (fst s1)) = 1
    | _ => False
    end
  | _ => False
  end.
Proof. vm_compute. repeat split. Qed.
Example C76_case : client_window 2 0 = Ok 0 /\ client_window 0 30 = Ok 16 /\ client_limiter 2 16 500 = Ok (NewLimiter (Some 2000000) 16).
Proof. repeat split. Qed.
Print Assumptions C71_bucket.
Print Assumptions C71_throughput_partial.
Print Assumptions C71_default.
Print Assumptions C71_served.
Print Assumptions C71_refuted_rate.
Print Assumptions C71_unlimited.
Print Assumptions C71_no_window.
Print Assumptions C71_connection_partial.
Print Assumptions C71_refuted_relogin.
Print Assumptions C76_configured_partial.
Print Assumptions C76_refuted.
Print Assumptions C76_refuted_ignored.
