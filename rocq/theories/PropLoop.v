(** * PropLoop: property C109 (one client's load does not hold up the others). *)
From Verif Require Import Base UtilsModel OptionsModel SpecText SpecWire CmppModel PropCmpp FrameModel SpecServer ServerModel ServerProofs
  PropServer PropWindow PropAnswers LoopModel LoopProofs.

(** ** Vocabulary *)
(** Everything read from and written to the connections so far: what the clients can see. *)
Definition seen (l : loop) : list (list obs) := map (fun x => sc_log (lc_c x)) (lp_cs l).
(** Goroutines at work on packets of a logged-in client. *)
Definition at_work (t : task) : bool := match fst t with JLogin _ _ | JForce | JHeart | JDly _ => false | _ => true end.
(** The window sizes of the logins of a log, added up. *)
Definition sum_windows (l : list obs) : Z := fold_right (fun o s => match o with OLogin _ a => ac_MtWindowSize a + s | _ => s end) 0 l.
(** No goroutine of connection [i] makes a step. *)
Definition frozen (i : nat) (es : list lev) : Prop := forall t o, ~ In (LTask i t o) es.

(** ** Lemmas *)
Lemma at_work_job t : at_work t = job_for (fst t). Proof. destruct t as [[]]; reflexivity. Qed.
Lemma sum_sizes l : sum_windows l = fold_right Z.add 0 (sizes l).
Proof. induction l as [|o l IH]; [reflexivity|]. cbn [sum_windows fold_right sizes flat_map]. destruct o; cbn [app fold_right]; try exact IH. fold (sizes l). rewrite <- IH. reflexivity. Qed.
Lemma sizes_in l w : In w (sizes l) -> exists k a, In (OLogin k a) l /\ w = ac_MtWindowSize a.
Proof.
  unfold sizes. intros H. apply in_flat_map in H as (o & Ho & H). destruct o; try (destruct H; fail). destruct H as [<-|[]]. eauto.
Qed.
Definition pooled (l : list (option nat)) : Z := zlen (filter (fun p => match p with Some _ => true | None => false end) l).
Fixpoint runs (n : nat) (l : list (option nat)) : Z := match n with O => 0 | S m => runs m l + running m l end.
Lemma runs_nil n : runs n [] = 0. Proof. induction n as [|n IH]; [reflexivity|]. cbn [runs]. rewrite IH. reflexivity. Qed.
Lemma runs_cons n p l : runs n (p :: l) = runs n [p] + runs n l.
Proof. induction n as [|n IH]; [reflexivity|]. cbn [runs]. change (p :: l) with ([p] ++ l) at 2. rewrite running_app. lia. Qed.
Lemma runs_one n p : runs n [p] = match p with Some g => if (g <? n)%nat then 1 else 0 | None => 0 end.
Proof.
  induction n as [|n IH]; [destruct p; reflexivity|]. cbn [runs]. rewrite IH, running_one. destruct p as [g|]; [|reflexivity]. cbn [in_pool].
  destruct (Nat.eqb g n) eqn:E; [apply Nat.eqb_eq in E as ->|apply Nat.eqb_neq in E].
  - rewrite Nat.ltb_irrefl. replace (n <? S n)%nat with true by (symmetry; apply Nat.ltb_lt; lia). reflexivity.
  - destruct (g <? n)%nat eqn:L; [apply Nat.ltb_lt in L; replace (g <? S n)%nat with true by (symmetry; apply Nat.ltb_lt; lia); reflexivity|].
    apply Nat.ltb_ge in L. replace (g <? S n)%nat with false by (symmetry; apply Nat.ltb_ge; lia). reflexivity.
Qed.
Lemma pooled_runs n l : (forall p, In p l -> match p with Some h => (h < n)%nat | None => True end) -> pooled l = runs n l.
Proof.
  induction l as [|p l IH]; intros H; [rewrite runs_nil; reflexivity|]. rewrite runs_cons, runs_one, <- IH by (intros q Hq; apply H; right; exact Hq).
  specialize (H p (or_introl eq_refl)). unfold pooled. cbn [filter]. destruct p as [g|]; [|lia]. replace (g <? n)%nat with true by (symmetry; apply Nat.ltb_lt; exact H).
  unfold zlen. cbn [length]. lia.
Qed.
Lemma placed_count n ts l : Forall2 (placed n) ts l -> count at_work ts = pooled l.
Proof.
  intros H. induction H as [|t p ts l P H IH]; [reflexivity|]. rewrite count_cons, IH, at_work_job. unfold pooled. cbn [filter]. destruct p as [g|]; cbn in P.
  - destruct P as (_ & ->). unfold zlen. cbn [length]. lia.
  - rewrite P. lia.
Qed.
Lemma runs_bound n l cs : length cs = n -> (forall g, 0 < nth g cs 0 -> running g l <= 2 * nth g cs 0) -> (forall w, In w cs -> 1 <= w) -> runs n l <= 2 * fold_right Z.add 0 cs.
Proof.
  revert cs. induction n as [|n IH]; intros cs L B P; [destruct cs; [cbn; lia|discriminate]|]. destruct (rev cs) as [|w r] eqn:E.
  { apply (f_equal (@length _)) in E. rewrite rev_length in E. cbn in E. lia. }
  assert (X : cs = rev r ++ [w]) by (rewrite <- (rev_involutive cs), E; reflexivity). subst cs. rewrite app_length in L. cbn [length] in L. cbn [runs].
  assert (N : length (rev r) = n) by lia.
  specialize (IH (rev r) N). rewrite fold_right_app. cbn [fold_right].
  assert (F : forall z u, fold_right Z.add z u = fold_right Z.add 0 u + z) by (intros z u; induction u as [|a u IHu]; cbn [fold_right]; lia). rewrite (F (w + 0)).
  assert (1 <= w) by (apply P; apply in_or_app; right; left; reflexivity).
  assert (running n l <= 2 * w). { specialize (B n). rewrite app_nth2, N, Nat.sub_diag in B by lia. apply B. cbn. lia. }
  enough (runs n l <= 2 * fold_right Z.add 0 (rev r)) by lia. apply IH.
  - intros g G. destruct (Nat.lt_ge_cases g n) as [H1|H1]; [specialize (B g); rewrite app_nth1 in B by lia; apply B; exact G|]. rewrite nth_overflow in G by lia. lia.
  - intros u Hu. apply P. apply in_or_app. left. exact Hu.
Qed.

(** ** C109: what holds *)
(** Each connection does what it would do with a loop of its own, slower perhaps: everything proved
    about single connections holds for the connections of a loop. *)
Theorem C109_each : forall pr es l i x, loop_run pr loop0 es = Ok l -> nth_error (lp_cs l) i = Some x ->
  exists now es1, run pr (opened now) es1 = Ok (lc_c x).
Proof. intros pr es l i x E N. destruct (all_loop0 pr) as (A & W). destruct (all_run pr es _ _ A W E) as (A1 & _). apply (A1 i x N). Qed.
(** A client has at most twice its window of goroutines at work, per login. *)
Theorem C109_bound : forall pr es l i x, loop_run pr loop0 es = Ok l -> nth_error (lp_cs l) i = Some x ->
  (forall k a, In (OLogin k a) (sc_log (lc_c x)) -> 1 <= ac_MtWindowSize a) ->
  count at_work (sc_tasks (lc_c x)) <= 2 * sum_windows (sc_log (lc_c x)).
Proof.
  intros pr es l i x E N P. destruct (all_loop0 pr) as (A & W). destruct (all_run pr es _ _ A W E) as (A1 & _). pose proof (A1 i x N) as M. destruct (made_sized _ _ M) as (_ & S1 & _). destruct M as (_ & F1 & F2).
  rewrite (placed_count _ _ _ F1), (pooled_runs _ _ (placed_in _ _ _ F1)), sum_sizes, <- S1. apply runs_bound.
  - apply caps_len.
  - intros g G. specialize (F2 g). unfold pool_size in F2. rewrite cap_caps in F2. apply F2. exact G.
  - intros w Hw. rewrite S1 in Hw. apply sizes_in in Hw as (k & a & H1 & ->). eapply P. exact H1.
Qed.
Lemma running_pooled g l : running g l <= pooled l.
Proof. unfold running, pooled. induction l as [|p l IH]; [cbn; lia|]. cbn [filter]. unfold zlen in *. destruct p as [h|]; cbn [in_pool]; [destruct (Nat.eqb h g); cbn [length]; lia|lia]. Qed.
(** The loop begins to wait only for a logged-in client with twice its window of goroutines at work. *)
Theorem C109_only_partial : forall pr es l e l1 i seg o, loop_run pr loop0 es = Ok l -> lp_wait l = None -> loop_step pr l e = Ok l1 -> lp_wait l1 = Some (i, seg, o) ->
  e = LRecv i seg o /\ lp_cs l1 = lp_cs l /\
  exists x a, nth_error (lp_cs l) i = Some x /\ last_login (sc_log (lc_c x)) = Some a /\ 1 <= ac_MtWindowSize a /\ 2 * ac_MtWindowSize a <= count at_work (sc_tasks (lc_c x)).
Proof.
  intros pr es l e l1 i seg o E W0 ST W1. destruct (all_loop0 pr) as (A0 & WK). destruct (all_run pr es _ _ A0 WK E) as (A & _). destruct l as [cs w]. cbn [lp_wait] in W0. subst w.
  destruct e as [now|i' seg' o'| |i' o'|i'|i' t o'|i' o']; cbn [loop_step lp_wait lp_cs] in ST; unfold on_loop in ST; cbn [lp_wait lp_cs] in ST;
    try (injection ST as <-; discriminate W1); destruct (nth_error cs i') as [x|] eqn:N; try (injection ST as <-; discriminate W1).
  - destruct (to_pool pr o' seg' (lc_c x)) eqn:TP; [|apply bind_ok in ST as (c' & _ & ST); injection ST as <-; discriminate W1].
    destruct (has_room x) eqn:R; [apply bind_ok in ST as (c' & _ & ST); injection ST as <-; discriminate W1|]. injection ST as <-. cbn [lp_wait] in W1. injection W1 as -> -> ->.
    split; [reflexivity|]. split; [reflexivity|]. pose proof (A i x N) as M. destruct (made_sized _ _ M) as (_ & _ & S2). destruct M as (_ & F1 & _).
    unfold has_room in R. destruct (se_win (sc_sess (lc_c x))) as [g|]; [|discriminate]. destruct (S2 g eq_refl) as (_ & a & L & C). exists x, a. split; [exact N|]. split; [exact L|].
    apply orb_false_iff in R as [R1 R2]. unfold pool_size in *. rewrite cap_caps, C in *. split; [lia|]. rewrite (placed_count _ _ _ F1). pose proof (running_pooled g (lc_in x)). lia.
  - apply bind_ok in ST as (c' & _ & ST). injection ST as <-. discriminate W1.
Qed.

(** ** C109: what does not *)
Lemma map_upd {A B} (f : A -> B) l i x y : nth_error l i = Some x -> f y = f x -> map f (upd l i y) = map f l.
Proof. intros N E. rewrite (split_nth l i x N) at 2. unfold upd. rewrite !map_app. cbn [map]. rewrite E. reflexivity. Qed.
(** A loop that waits for connection [i] has a connection [i], without room. *)
Definition waits_for (i : nat) (l : loop) : Prop := exists seg o x, lp_wait l = Some (i, seg, o) /\ nth_error (lp_cs l) i = Some x /\ has_room x = false.
Lemma room_grown pr o x : has_room (grown x (on_tick pr o (lc_c x)) None) = has_room x.
Proof.
  destruct (step_tick pr o (lc_c x)) as (js & TK & _). unfold has_room, grown. cbn [lc_c lc_in]. rewrite TK. cbn [with_tasks sc_sess].
  destruct (se_win (sc_sess (lc_c x))) as [g|]; [|reflexivity]. rewrite running_app, running_none, Z.add_0_r. reflexivity.
Qed.
Lemma waits_step pr l e l' i : waits_for i l -> (forall t o, e <> LTask i t o) -> loop_step pr l e = Ok l' -> waits_for i l' /\ lp_wait l' = lp_wait l /\ seen l' = seen l.
Proof.
  intros (seg & o & x & W & N & R) F E. destruct l as [cs w]. cbn [lp_wait lp_cs] in *. subst w.
  assert (SAME : Ok (Loop cs (Some (i, seg, o))) = Ok l' -> waits_for i l' /\ lp_wait l' = Some (i, seg, o) /\ seen l' = seen (Loop cs (Some (i, seg, o)))).
  { intros H. injection H as <-. split; [exists seg, o, x; auto|auto]. }
  assert (PUT : forall j y y', nth_error cs j = Some y -> sc_log (lc_c y') = sc_log (lc_c y) -> (j = i -> has_room y' = false) -> Ok (Loop (upd cs j y') (Some (i, seg, o))) = Ok l' ->
    waits_for i l' /\ lp_wait l' = Some (i, seg, o) /\ seen l' = seen (Loop cs (Some (i, seg, o)))).
  { intros j y y' NJ L HR H. injection H as <-. split; [|split; [reflexivity|unfold seen; cbn [lp_cs]; eapply map_upd; [exact NJ|exact L]]].
    destruct (Nat.eq_dec j i) as [->|D].
    - exists seg, o, y'. split; [reflexivity|]. split; [eapply nth_error_upd_same; exact NJ|auto].
    - exists seg, o, x. split; [reflexivity|]. split; [|exact R]. cbn [lp_cs]. rewrite nth_error_upd_other; [exact N|auto|apply nth_error_Some; congruence]. }
  destruct e as [now|j seg' o'| |j o'|j|j t o'|j o']; cbn [loop_step lp_wait lp_cs] in E; unfold on_loop in E; cbn [lp_wait] in E; auto.
  - rewrite N, R in E. auto.
  - cbn [lp_cs] in E. destruct (nth_error cs j) as [y|] eqn:NJ; [|auto]. apply (PUT j y _ NJ) in E; auto; [apply task_log|]. intros ->. exfalso. eapply F. reflexivity.
  - cbn [lp_cs] in E. destruct (nth_error cs j) as [y|] eqn:NJ; [|auto]. apply (PUT j y _ NJ) in E; auto; [apply tick_log|]. intros ->. rewrite room_grown. congruence.
Qed.
Lemma waits_run pr es : forall l l' i, waits_for i l -> frozen i es -> loop_run pr l es = Ok l' -> lp_wait l' = lp_wait l /\ seen l' = seen l.
Proof.
  induction es as [|e es IH]; intros l l' i W F E; cbn [loop_run] in E; [injection E as <-; auto|]. apply bind_ok in E as (l1 & E1 & E2).
  destruct (waits_step pr l e l1 i W) as (W1 & Q1 & Q2); [intros t o ->; eapply F; left; reflexivity|exact E1|]. rewrite <- Q1, <- Q2. eapply IH; eauto. intros t o H. eapply F. right. exact H.
Qed.
Lemma waits_start pr l e l1 i seg o : lp_wait l = None -> loop_step pr l e = Ok l1 -> lp_wait l1 = Some (i, seg, o) -> waits_for i l1 /\ seen l1 = seen l.
Proof.
  intros W0 ST W1. destruct l as [cs w]. cbn [lp_wait] in W0. subst w.
  destruct e as [now|i' seg' o'| |i' o'|i'|i' t o'|i' o']; cbn [loop_step lp_wait lp_cs] in ST; unfold on_loop in ST; cbn [lp_wait lp_cs] in ST;
    try (injection ST as <-; discriminate W1); destruct (nth_error cs i') as [x|] eqn:N; try (injection ST as <-; discriminate W1).
  - destruct (to_pool pr o' seg' (lc_c x)) eqn:TP; [|apply bind_ok in ST as (c' & _ & ST); injection ST as <-; discriminate W1].
    destruct (has_room x) eqn:R; [apply bind_ok in ST as (c' & _ & ST); injection ST as <-; discriminate W1|]. injection ST as <-. cbn [lp_wait] in W1. injection W1 as -> -> ->.
    split; [exists seg, o, x; auto|reflexivity].
  - apply bind_ok in ST as (c' & _ & ST). injection ST as <-. discriminate W1.
Qed.
(** While the loop waits for the goroutines of one connection nothing is read from, or written to, any
    connection, and none is accepted or closed: whatever the other clients and their goroutines do. *)
Theorem C109_refuted_held : forall pr l e l1 i seg o es l2, lp_wait l = None -> loop_step pr l e = Ok l1 -> lp_wait l1 = Some (i, seg, o) ->
  frozen i es -> loop_run pr l1 es = Ok l2 -> seen l2 = seen l /\ lp_wait l2 = Some (i, seg, o).
Proof.
  intros pr l e l1 i seg o es l2 W0 ST W1 F E. destruct (waits_start _ _ _ _ _ _ _ W0 ST W1) as (WF & S1). destruct (waits_run pr es l1 l2 i WF F E) as (A & B). split; congruence.
Qed.
(** For any window size a client with [2 * window + 1] heartbeats in a row gets the loop to wait; a
    second client stays connected, unheard. *)
Definition ac_win (w : Z) : authconf :=
  AuthConf [67;77;80;80] [57;48;49;48;48;49] [] [115;101;99] 48 1 [57;53] [77;49] 5 2 0 [] [48;50] [49;48] [] [] 0 4 w 100.
Definition pr_win (w : Z) : params := Params P_CMPP true md5_demo (fun b => Some b) (fun _ n => if beqb n [57;48;49;48;48;49] then Some (ac_win w) else None) true 1000000000000.
Definition beat : lev := LRecv 0 (active_demo ++ [0]) orc1.
Definition es_flood (n : nat) : list lev := [LOpen 0; LOpen 0; LRecv 0 login_demo orc0; LTask 0 0 orc0; LWrite 0 orc0] ++ repeat beat (S n).
Lemma loop_run_app pr es1 : forall es2 l l1, loop_run pr l es1 = Ok l1 -> loop_run pr l (es1 ++ es2) = loop_run pr l1 es2.
Proof.
  induction es1 as [|e es1 IH]; intros es2 l l1 E; cbn [loop_run app] in *; [injection E as ->; reflexivity|].
  destruct (loop_step pr l e) as [l2| |]; cbn [bind] in *; try discriminate. auto.
Qed.
Definition idle_conn (p : positive) (c : sconn) : Prop :=
  sc_open c = true /\ sc_buf c = [] /\ se_stat (sc_sess c) = StatLogin /\ se_res (sc_sess c) = true /\ se_win (sc_sess c) = Some 0%nat /\ caps c = [Zpos p].
Definition loaded (p : positive) (n : nat) (l : loop) : Prop :=
  exists c, lp_wait l = None /\ lp_cs l = [LConn c (repeat (Some 0%nat) n); LConn (opened 0) []] /\ idle_conn p c.
Lemma beat_recv w c : sc_open c = true -> sc_buf c = [] -> se_stat (sc_sess c) = StatLogin -> se_res (sc_sess c) = true -> granted orc1 = orc1 /\
  exists j ls, on_recv (pr_win w) orc1 (active_demo ++ [0]) c = Ok (with_buf (add c [(j, PStart)] ls) []) /\ job_for j = true.
Proof.
  intros O B T Q. split; [reflexivity|]. destruct c as [buf op s chans tasks queue wish log]. destruct s as [st ver cid nAt last win rs conn mt dly rpt].
  cbn [sc_open sc_buf sc_sess se_stat se_res] in *. subst.
  eexists. eexists. unfold on_recv. cbn [sc_open negb sc_buf app]. unfold OnTraffic.
  match goal with |- context [DecodeAndCheckHeader ?p ?d ?b] => let r := eval vm_compute in (DecodeAndCheckHeader p d b) in replace (DecodeAndCheckHeader p d b) with r by (vm_compute; reflexivity) end.
  cbn [bind]. split; [cbv - [app]; rewrite <- app_assoc; reflexivity|reflexivity].
Qed.
Lemma running_all n : running 0 (repeat (Some 0%nat) n) = Z.of_nat n.
Proof. unfold running, zlen. induction n as [|n IH]; [reflexivity|]. cbn [repeat filter in_pool Nat.eqb length]. lia. Qed.
Lemma beat_to w c : sc_open c = true -> sc_buf c = [] -> se_stat (sc_sess c) = StatLogin -> se_res (sc_sess c) = true -> to_pool (pr_win w) orc1 (active_demo ++ [0]) c = true.
Proof.
  intros A B C D. destruct (beat_recv w c A B C D) as (G & j & ls & E & J). unfold to_pool. rewrite G, E. cbn [with_buf add sc_tasks]. rewrite skipn_length_app. destruct j; try discriminate; reflexivity.
Qed.
Lemma room_idle p n c : idle_conn p c -> has_room (LConn c (repeat (Some 0%nat) n)) = (Z.of_nat n <? 2 * Zpos p).
Proof.
  intros (_ & _ & _ & _ & W & C). unfold has_room. cbn [lc_c lc_in]. rewrite W, running_all. unfold pool_size. rewrite cap_caps, C. cbn [nth].
  replace (2 * Zpos p <=? 0) with false by (symmetry; apply Z.leb_gt; lia). reflexivity.
Qed.
Lemma beat_step p n l : loaded p n l -> Z.of_nat n < 2 * Zpos p -> exists l', loop_step (pr_win (Zpos p)) l beat = Ok l' /\ loaded p (S n) l'.
Proof.
  intros (c & W & CS & ID) L. destruct l as [cs w]. cbn [lp_wait lp_cs] in *. subst. pose proof (room_idle p n c ID) as R. replace (Z.of_nat n <? 2 * Zpos p) with true in R by lia.
  destruct ID as (A & B & C & D & E & F). destruct (beat_recv (Zpos p) c A B C D) as (G & j & ls & H & J).
  unfold beat. cbn [loop_step]. unfold on_loop. cbn [lp_wait lp_cs nth_error]. rewrite (beat_to (Zpos p)) by assumption. rewrite R. unfold take. cbn [lc_c]. rewrite G, H. cbn [bind].
  eexists. split; [reflexivity|]. exists (with_buf (add c [(j, PStart)] ls) []). split; [reflexivity|]. split.
  - unfold lput. cbn [lp_cs upd firstn skipn app]. f_equal. unfold grown. cbn [lc_c lc_in with_buf add sc_tasks]. rewrite app_length, Nat.add_comm, Nat.add_sub.
    rewrite E. f_equal. exact (eq_sym (repeat_cons n (Some 0%nat))).
  - repeat split; assumption.
Qed.
Lemma beat_wait p n l : loaded p n l -> Z.of_nat n = 2 * Zpos p -> loop_step (pr_win (Zpos p)) l beat = Ok (Loop (lp_cs l) (Some (0%nat, active_demo ++ [0], orc1))).
Proof.
  intros (c & W & CS & ID) L. destruct l as [cs w]. cbn [lp_wait lp_cs] in *. subst. pose proof (room_idle p n c ID) as R. replace (Z.of_nat n <? 2 * Zpos p) with false in R by lia.
  destruct ID as (A & B & C & D & E & F). unfold beat. cbn [loop_step]. unfold on_loop. cbn [lp_wait lp_cs nth_error lc_c]. rewrite (beat_to (Zpos p)) by assumption. rewrite R. reflexivity.
Qed.
Lemma beats p : forall k n l, loaded p n l -> Z.of_nat (n + k) <= 2 * Zpos p -> exists l', loop_run (pr_win (Zpos p)) l (repeat beat k) = Ok l' /\ loaded p (n + k) l'.
Proof.
  induction k as [|k IH]; intros n l H L; [exists l; rewrite Nat.add_0_r; auto|]. destruct (beat_step p n l H) as (l1 & E1 & H1); [lia|]. cbn [repeat loop_run]. rewrite E1. cbn [bind].
  destruct (IH (S n) l1 H1) as (l2 & E2 & H2); [lia|]. exists l2. split; [exact E2|]. replace (n + S k)%nat with (S n + k)%nat by lia. exact H2.
Qed.
Lemma flood_start p : exists l, loop_run (pr_win (Zpos p)) loop0 [LOpen 0; LOpen 0; LRecv 0 login_demo orc0; LTask 0 0 orc0; LWrite 0 orc0] = Ok l /\ loaded p 0 l.
Proof.
  eexists. split; [vm_compute; reflexivity|]. eexists. split; [reflexivity|]. split; [reflexivity|]. repeat split.
Qed.
Lemma repeat_snoc {A} (x : A) n : repeat x (S n) = repeat x n ++ [x].
Proof. exact (repeat_cons n x). Qed.
Theorem C109_refuted : forall w, 1 <= w -> exists es l, loop_run (pr_win w) loop0 es = Ok l /\
  (exists x y, lp_cs l = [x; y] /\ sc_open (lc_c y) = true /\ sc_log (lc_c y) = []) /\
  forall es1 l1, frozen 0 es1 -> loop_run (pr_win w) l es1 = Ok l1 -> seen l1 = seen l.
Proof.
  intros w W. destruct w as [|p|p]; try lia. destruct (flood_start p) as (l0 & E0 & H0). destruct (beats p (Pos.to_nat (2 * p)) 0 l0 H0) as (l1 & E1 & H1); [lia|].
  assert (X := beat_wait p _ l1 H1 ltac:(lia)). exists (es_flood (Pos.to_nat (2 * p))), (Loop (lp_cs l1) (Some (0%nat, active_demo ++ [0], orc1))).
  split; [|split].
  - unfold es_flood. rewrite (loop_run_app _ _ _ _ _ E0), repeat_snoc, (loop_run_app _ _ _ _ _ E1). cbn [loop_run]. rewrite X. reflexivity.
  - destruct H1 as (c & _ & CS & _). cbn [lp_cs]. rewrite CS. eexists. eexists. split; [reflexivity|]. split; reflexivity.
  - intros es1 l2 F E. destruct H1 as (c & W1 & _ & _). destruct (C109_refuted_held _ l1 beat _ 0 _ orc1 es1 l2 W1 X eq_refl F E) as (A & _). rewrite A. reflexivity.
Qed.

(** ** After two re-logins it can be for ever *)
(** All goroutines of the session's pool wait to receive from an empty window nobody sends on. *)
Definition dead_task (g : nat) (t : task) (p : option nat) : Prop :=
  (p = Some g /\ is_win (fst t) = true /\ snd t = PRecv g) \/ (p = None /\ is_win (fst t) = false).
Definition dead (g : nat) (x : lconn) : Prop :=
  se_win (sc_sess (lc_c x)) = Some g /\ ch_len (get_chan (lc_c x) g) = 0 /\ ch_closed (get_chan (lc_c x) g) = false /\
  Forall2 (dead_task g) (sc_tasks (lc_c x)) (lc_in x) /\ has_room x = false.
Lemma Forall2_nth {A B} (P : A -> B -> Prop) l r i a : Forall2 P l r -> nth_error l i = Some a -> exists b, nth_error r i = Some b /\ P a b.
Proof. intros H. revert i. induction H as [|x y l r Pxy H IH]; intros [|i] N; cbn [nth_error] in *; try discriminate; [injection N as <-; eauto|auto]. Qed.
Lemma running_del_none g l i : nth_error l i = Some None -> running g (del l i) = running g l.
Proof. intros N. rewrite (split_nth l i None N) at 2. unfold del. rewrite !running_app. reflexivity. Qed.
Lemma upd_same {A} (l : list A) i x : nth_error l i = Some x -> upd l i x = l.
Proof. intros N. symmetry. exact (split_nth l i x N). Qed.
Lemma dead_plain g x its t : dead g x -> nth_error (lc_in x) t = Some None -> (t < length (sc_tasks (lc_c x)))%nat ->
  dead g (LConn (put (lc_c x) its (del (sc_tasks (lc_c x)) t)) (del (lc_in x) t)).
Proof.
  intros (A & B & C & D & R) N L. split; [exact A|]. split; [exact B|]. split; [exact C|]. split; [apply Forall2_del; exact D|].
  unfold has_room in *. cbn [lc_c lc_in put sc_sess]. rewrite A in *. rewrite running_del_none by exact N. exact R.
Qed.
Lemma put_nil c ts : with_tasks c ts = put c [] ts.
Proof. unfold put, with_tasks. rewrite app_nil_r. reflexivity. Qed.
Lemma dead_step pr o t g x : dead g x ->
  dead g (LConn (on_task pr o t (lc_c x)) (if (length (sc_tasks (on_task pr o t (lc_c x))) <? length (sc_tasks (lc_c x)))%nat then del (lc_in x) t else lc_in x)).
Proof.
  intros DD. pose proof DD as (A & B & C & D & R). destruct (nth_error (sc_tasks (lc_c x)) t) as [[j q]|] eqn:N.
  2:{ unfold on_task. rewrite N, Nat.ltb_irrefl. destruct x; exact DD. }
  assert (L : (t < length (sc_tasks (lc_c x)))%nat) by (apply nth_error_Some; congruence). destruct (Forall2_nth _ _ _ _ _ D N) as (p & NP & [(P1 & P2 & P3)|(P1 & P2)]); cbn [fst snd] in *; subst p.
  - subst q. unfold on_task. rewrite N. replace (plain_job pr o j (lc_c x)) with (@None (res sconn)) by (symmetry; apply plain_none; exact P2).
    unfold try_recv. rewrite B, C. cbn [Z.ltb Z.compare]. cbn [with_tasks sc_tasks]. rewrite upd_same by exact N. rewrite Nat.ltb_irrefl. destruct x as [c l]. cbn [lc_c lc_in] in *. destruct c. exact DD.
  - assert (X : exists its, on_task pr o t (lc_c x) = put (lc_c x) its (del (sc_tasks (lc_c x)) t)).
    { destruct (on_task_step pr o t (lc_c x) j q N) as [W1 F1|Ej|it W1 I1 C1|g' W1 Q|W1 Q S|W1 Q|k r it code a Ej Eq I1 C1 Ec Ek Ea|s' its w W1 Eq Nj SS It Wi|its a k Eq W1 It|g' W1 Q|W1 Q];
        try congruence; try (exists []; apply put_nil); [exists [it]; reflexivity|subst j; discriminate P2]. }
    destruct X as (its & ->). cbn [put sc_tasks]. rewrite length_del by exact L. replace (_ <? _)%nat with true by (symmetry; apply Nat.ltb_lt; lia). apply dead_plain; assumption.
Qed.
Lemma dead_tick pr o g x : dead g x -> dead g (grown x (on_tick pr o (lc_c x)) None).
Proof.
  intros (A & B & C & D & R). pose proof (room_grown pr o x) as RG. destruct (step_tick pr o (lc_c x)) as (js & TK & J). unfold grown in *. cbn [lc_c lc_in] in *. rewrite TK in *. cbn [with_tasks sc_tasks] in *. rewrite app_length in *.
  replace (length (sc_tasks (lc_c x)) + length js - length (sc_tasks (lc_c x)))%nat with (length js) in * by lia.
  split; [exact A|]. split; [exact B|]. split; [exact C|]. split; [|congruence]. cbn [lc_c lc_in with_tasks sc_tasks]. apply Forall2_app; [exact D|]. clear -J.
  induction js as [|t js IH]; cbn [length repeat]; constructor; [right; split; [reflexivity|apply J; left; reflexivity]|]. apply IH. intros u Hu. apply J. right. exact Hu.
Qed.
Definition hung (i g : nat) (l : loop) : Prop := exists seg o x, lp_wait l = Some (i, seg, o) /\ nth_error (lp_cs l) i = Some x /\ dead g x.
Lemma hung_step pr l e i g : hung i g l -> exists l', loop_step pr l e = Ok l' /\ hung i g l' /\ lp_wait l' = lp_wait l /\ seen l' = seen l.
Proof.
  intros (seg & o & x & W & N & D). destruct l as [cs w]. cbn [lp_wait lp_cs] in *. subst w.
  assert (SAME : exists l', Ok (Loop cs (Some (i, seg, o))) = Ok l' /\ hung i g l' /\ lp_wait l' = Some (i, seg, o) /\ seen l' = seen (Loop cs (Some (i, seg, o)))).
  { eexists. split; [reflexivity|]. split; [exists seg, o, x; auto|auto]. }
  assert (PUT : forall j y y', nth_error cs j = Some y -> sc_log (lc_c y') = sc_log (lc_c y) -> (j = i -> dead g y') ->
    exists l', Ok (Loop (upd cs j y') (Some (i, seg, o))) = Ok l' /\ hung i g l' /\ lp_wait l' = Some (i, seg, o) /\ seen l' = seen (Loop cs (Some (i, seg, o)))).
  { intros j y y' NJ LG HR. eexists. split; [reflexivity|]. split; [|split; [reflexivity|unfold seen; cbn [lp_cs]; eapply map_upd; [exact NJ|exact LG]]].
    destruct (Nat.eq_dec j i) as [->|DF].
    - exists seg, o, y'. split; [reflexivity|]. split; [eapply nth_error_upd_same; exact NJ|auto].
    - exists seg, o, x. split; [reflexivity|]. split; [|exact D]. cbn [lp_cs]. rewrite nth_error_upd_other; [exact N|auto|apply nth_error_Some; congruence]. }
  destruct e as [now|j seg' o'| |j o'|j|j t o'|j o']; cbn [loop_step lp_wait lp_cs]; unfold on_loop; cbn [lp_wait]; auto.
  - rewrite N. destruct D as (_ & _ & _ & _ & R). rewrite R. auto.
  - cbn [lp_cs]. destruct (nth_error cs j) as [y|] eqn:NJ; [|auto]. apply (PUT j y); [exact NJ|apply task_log|]. intros ->. replace y with x by congruence. apply dead_step. exact D.
  - cbn [lp_cs]. destruct (nth_error cs j) as [y|] eqn:NJ; [|auto]. apply (PUT j y); [exact NJ|apply tick_log|]. intros ->. replace y with x by congruence. apply dead_tick. exact D.
Qed.
Lemma hung_run pr es : forall l i g, hung i g l -> exists l', loop_run pr l es = Ok l' /\ lp_wait l' = lp_wait l /\ seen l' = seen l.
Proof.
  induction es as [|e es IH]; intros l i g H; cbn [loop_run]; [eauto|]. destruct (hung_step pr l e i g H) as (l1 & E1 & H1 & W1 & S1). rewrite E1. cbn [bind].
  destruct (IH l1 i g H1) as (l2 & E2 & W2 & S2). exists l2. split; [exact E2|]. split; congruence.
Qed.
(** The window is one; the client logs in three times, each time with heartbeats under way whose
    goroutines then take the slots of the new window. *)
Definition es_hang : list lev :=
  [LOpen 0; LOpen 0; LRecv 0 login_demo orc0; LTask 0 0 orc0; LWrite 0 orc0] ++
  [beat; LTask 0 0 orc1] ++                                          (* a: slot of window 0 *)
  [LRecv 0 login_demo orc1; LTask 0 1 orc1; LWrite 0 orc1] ++        (* second login *)
  [beat; LTask 0 1 orc1; LTask 0 0 orc1; LTask 0 0 orc1] ++          (* b1: slot; a gives it back *)
  [LWrite 0 orc1; beat; LTask 0 1 orc1] ++                           (* b2: slot *)
  [LRecv 0 login_demo orc1; LTask 0 2 orc1; LWrite 0 orc1] ++        (* third login *)
  [beat; LTask 0 2 orc1; LTask 0 0 orc1; LTask 0 0 orc1] ++          (* c1: slot; b1 gives it back *)
  [beat; LTask 0 2 orc1; LTask 0 0 orc1; LTask 0 0 orc1] ++          (* c2: slot; b2 gives it back *)
  [LTask 0 0 orc1; LTask 0 0 orc1; LTask 0 1 orc1; LTask 0 1 orc1] ++   (* c1 and c2 are done, and wait *)
  [LWrite 0 orc1; LWrite 0 orc1; LWrite 0 orc1; LWrite 0 orc1; LTask 1 0 orc1; beat].
Theorem C109_refuted_forever : exists es l, loop_run pr_one loop0 es = Ok l /\ length (lp_cs l) = 2%nat /\ (forall x, In x (lp_cs l) -> sc_open (lc_c x) = true) /\
  forall es1, exists l1, loop_run pr_one l es1 = Ok l1 /\ seen l1 = seen l.
Proof.
  assert (X : exists l, loop_run pr_one loop0 es_hang = Ok l /\ length (lp_cs l) = 2%nat /\ forallb (fun x => sc_open (lc_c x)) (lp_cs l) = true /\ hung 0 2 l).
  { eexists. split; [vm_compute; reflexivity|]. split; [reflexivity|]. split; [reflexivity|]. eexists. eexists. eexists. split; [reflexivity|]. split; [reflexivity|].
    split; [reflexivity|]. split; [reflexivity|]. split; [reflexivity|]. split; [|reflexivity].
    apply Forall2_cons; [left; repeat split|]. apply Forall2_cons; [left; repeat split|]. constructor. }
  destruct X as (l & E & L & O & H). exists es_hang, l. split; [exact E|]. split; [exact L|]. split; [rewrite forallb_forall in O; exact O|].
  intros es1. destruct (hung_run pr_one es1 l 0 2 H) as (l1 & E1 & _ & S1). exists l1. auto.
Qed.

(** ** Without re-login the loop goes on *)
Lemma to_pool_log pr o seg c c' : to_pool pr o seg c = true -> on_recv pr (granted o) seg c = Ok c' -> exists k b, sc_log c' = sc_log c ++ [OGot k; OServe k b].
Proof.
  intros TP E. destruct (to_pool_job _ _ _ _ TP) as (c2 & j & E2 & T & J & _ & _ & O2). replace c2 with c' in * by congruence. clear E2 c2. apply on_recv_step in E.
  assert (LEN : length (sc_tasks c') = S (length (sc_tasks c))) by (rewrite T, app_length; cbn [length]; lia).
  destruct E as [O1|O1 F|O1 F|k rest O1 F N|k rest h a c1 O1 F Hin Hc HA].
  - exfalso. lia.
  - exfalso. cbn [with_buf sc_tasks] in LEN. lia.
  - exfalso. rewrite close_tasks in LEN. cbn [with_buf sc_tasks] in LEN. lia.
  - exfalso. cbn [with_buf sc_tasks] in LEN. lia.
  - inversion HA; subst; cbn [closing with_buf] in *; rewrite ?close_tasks in *; cbn [with_buf note spawn with_tasks sc_tasks sc_log] in *; try (exfalso; lia).
    + apply app_inv_head in T. injection T as <-. discriminate J.
    + exists k, true. rewrite <- app_assoc. reflexivity.
    + exists k, false. rewrite <- app_assoc. reflexivity.
    + exists k, false. rewrite <- app_assoc. reflexivity.
Qed.
Lemma resume pr o : forall n l i seg oo x, (total (sc_tasks (lc_c x)) <= n)%nat -> lp_wait l = Some (i, seg, oo) -> nth_error (lp_cs l) i = Some x -> all_made pr l -> wait_ok pr l -> win_ok (lc_c x) ->
  exists ts l1 y k b, loop_run pr l (map (fun t => LTask i t o) ts ++ [LResume]) = Ok l1 /\ lp_wait l1 = None /\ nth_error (lp_cs l1) i = Some y /\
    sc_log (lc_c y) = sc_log (lc_c x) ++ [OGot k; OServe k b] /\ forall j, j <> i -> nth_error (lp_cs l1) j = nth_error (lp_cs l) j.
Proof.
  induction n as [|n IH]; intros l i seg oo x T W N A WK WO.
  all: destruct (has_room x) eqn:R.
  1, 3: (pose proof WK as WK'; unfold wait_ok in WK'; rewrite W in WK'; destruct WK' as (y & Y & TP & _); replace y with x in * by congruence;
    destruct (to_pool_job _ _ _ _ TP) as (c' & j & E & _); destruct (to_pool_log _ _ _ _ _ TP E) as (k & b & LG);
    exists [], (Loop (upd (lp_cs l) i (grown x c' (se_win (sc_sess (lc_c x))))) None), (grown x c' (se_win (sc_sess (lc_c x)))), k, b;
    split; [cbn [map app loop_run loop_step]; rewrite W, N, R; unfold take; rewrite E; reflexivity|]; split; [reflexivity|]; split; [cbn [lp_cs]; eapply nth_error_upd_same; exact N|];
    split; [exact LG|]; intros m D; cbn [lp_cs]; apply nth_error_upd_other; [exact D|apply nth_error_Some; congruence]).
  all: pose proof WK as WK'; unfold wait_ok in WK'; rewrite W in WK'; destruct WK' as (y & Y & _ & g & G & CP); replace y with x in * by congruence.
  all: assert (NE : sc_tasks (lc_c x) <> []).
  1, 3: (intros Q; pose proof (A i x N) as (_ & F1 & _); rewrite Q in F1; inversion F1 as [X1 X2|]; unfold has_room in R; rewrite G, <- X2 in R; unfold pool_size in R; rewrite cap_caps in R;
    change (running g []) with 0 in R; apply orb_false_iff in R as [_ R]; lia).
  all: assert (WS : 1 <= window_size (lc_c x)) by (destruct (made_sized _ _ (A i x N)) as (_ & _ & S2); destruct (S2 g G) as (_ & a & L1 & L2); unfold window_size; rewrite L1, <- L2; lia).
  all: destruct (progress pr o (lc_c x) WO NE (fun _ => WS)) as (t & PT).
  - lia.
  - set (x1 := LConn (on_task pr o t (lc_c x)) (if (length (sc_tasks (on_task pr o t (lc_c x))) <? length (sc_tasks (lc_c x)))%nat then del (lc_in x) t else lc_in x)).
    assert (E1 : loop_step pr l (LTask i t o) = Ok (lput l i x1)) by (cbn [loop_step]; rewrite N; reflexivity).
    destruct (all_step pr l _ _ A WK E1) as (A1 & WK1).
    destruct (IH (lput l i x1) i seg oo x1) as (ts & l1 & z & k & b & E & W1 & N1 & LG & O1).
    + cbn [x1 lc_c]. lia.
    + exact W.
    + unfold lput. cbn [lp_cs]. eapply nth_error_upd_same. exact N.
    + exact A1.
    + exact WK1.
    + apply win_task. exact WO.
    + exists (t :: ts), l1, z, k, b. split; [cbn [map app loop_run]; rewrite E1; exact E|]. split; [exact W1|]. split; [exact N1|]. split; [rewrite LG; cbn [x1 lc_c]; rewrite task_log; reflexivity|].
      intros m D. rewrite (O1 m D). unfold lput. cbn [lp_cs]. apply nth_error_upd_other; [exact D|apply nth_error_Some; congruence].
Qed.
(** If the client the loop waits for has logged in once, its own goroutines can always get the loop
    going again, whatever answers their environment gives; the packet is then handled. *)
Theorem C109_resumes_partial : forall pr es l i seg o x o1, loop_run pr loop0 es = Ok l -> lp_wait l = Some (i, seg, o) -> nth_error (lp_cs l) i = Some x -> logins (sc_log (lc_c x)) <= 1 ->
  exists ts l1 y k b, loop_run pr l (map (fun t => LTask i t o1) ts ++ [LResume]) = Ok l1 /\ lp_wait l1 = None /\ nth_error (lp_cs l1) i = Some y /\
    sc_log (lc_c y) = sc_log (lc_c x) ++ [OGot k; OServe k b] /\ forall j, j <> i -> nth_error (lp_cs l1) j = nth_error (lp_cs l) j.
Proof.
  intros pr es l i seg o x o1 E W N LG. destruct (all_loop0 pr) as (A0 & W0). destruct (all_run pr es _ _ A0 W0 E) as (A & WK). eapply resume; eauto.
  pose proof WK as WK'. unfold wait_ok in WK'. rewrite W in WK'. destruct WK' as (y & Y & TP & _). replace y with x in * by congruence. destruct (to_pool_job _ _ _ _ TP) as (_ & _ & _ & _ & _ & _ & O & _).
  destruct (A i x N) as ((now & es1 & E1) & _). eapply win_run; [apply win_opened|exact E1|exact O|]. eapply once_calm; [apply win_opened|exact E1|exact O|exact LG].
Qed.

(** ** Cases *)
(** Window one: after two heartbeats the third makes the loop wait; the second client's login request
    is not read; when one heartbeat has been answered the loop goes on and reads it. *)
Definition es_wait : list lev := es_flood 2 ++ [LRecv 1 login_demo orc0].
Definition glance (r : res loop) : option (bool * list (nat * Z * Z)) :=
  match r with
  | Ok l => Some (match lp_wait l with Some _ => true | None => false end, map (fun x => (length (sc_log (lc_c x)), count at_work (sc_tasks (lc_c x)), sum_windows (sc_log (lc_c x)))) (lp_cs l))
  | _ => None
  end.
Example C109_case :
  glance (loop_run pr_one loop0 (es_flood 1)) = Some (false, [(7%nat, 2, 1); (0%nat, 0, 0)]) /\
  glance (loop_run pr_one loop0 es_wait) = Some (true, [(7%nat, 2, 1); (0%nat, 0, 0)]) /\
  glance (loop_run pr_one loop0 (es_wait ++ [LTask 0 0 orc1; LTask 0 0 orc1; LTask 0 0 orc1; LResume; LRecv 1 login_demo orc0])) = Some (false, [(9%nat, 2, 1); (1%nat, 0, 0)]).
Proof. vm_compute. repeat split. Qed.
Example C109_hang_case : glance (loop_run pr_one loop0 es_hang) = Some (true, [(24%nat, 2, 3); (0%nat, 0, 0)]).
Proof. vm_compute. reflexivity. Qed.
Print Assumptions C109_each.
Print Assumptions C109_bound.
Print Assumptions C109_only_partial.
Print Assumptions C109_refuted_held.
Print Assumptions C109_refuted.
Print Assumptions C109_refuted_forever.
Print Assumptions C109_resumes_partial.
