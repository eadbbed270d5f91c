(** * PropShare: properties C126 (identifier generators used by many goroutines at once) and
    C127 (the current value of an SGIP generator). *)
From Coq Require Import Sorted.
From Verif Require Import Base UtilsModel SpecText SeqModel SeqProofs ShareModel PropSeq.

(** ** Specification *)
(** [a] is [b] with some elements left out. *)
Inductive picked {A} : list A -> list A -> Prop :=
| pick_nil : picked [] []
| pick_skip x a b : picked a b -> picked a (x :: b)
| pick_take x a b : picked a b -> picked (x :: a) (x :: b).
(** The values in the order they were handed out, and the clock as the goroutines saw it. *)
Definition handed {St Lo R} (g : shared St Lo R) : list R := map snd (sh_log g).
Definition times {C} (es : list (shev C)) : list C := flat_map (fun e => match e with Move _ now => [now] | Call _ => [] end) es.

(** ** Proofs *)
Lemma picked_snoc {A} (a b : list A) x : picked a b -> picked a (b ++ [x]) /\ picked (a ++ [x]) (b ++ [x]).
Proof. induction 1 as [|y a b H [I1 I2]|y a b H [I1 I2]]; cbn; split; first [apply pick_take; (assumption || apply pick_nil)|apply pick_skip; (assumption || apply pick_nil)]. Qed.
Lemma picked_in {A} (a b : list A) : picked a b -> forall x, In x a -> In x b.
Proof. induction 1; intros y I; cbn in *; auto. destruct I; auto. Qed.
Lemma picked_left {A} (a c b : list A) : picked (a ++ c) b -> picked a b.
Proof.
  intros H. remember (a ++ c) as d eqn:E. revert a c E. induction H as [|x d b H IH|x d b H IH]; intros a c E.
  - destruct a; [constructor|discriminate E].
  - constructor. eapply IH; exact E.
  - destruct a as [|y a]; [|cbn in E; injection E as <- ->; apply pick_take; eapply IH; reflexivity]. apply pick_skip. exact (IH [] d eq_refl).
Qed.
Lemma picked_nondecr a b lo : picked a b -> nondecr_from lo b -> nondecr_from lo a.
Proof.
  intros H. revert lo. induction H as [|x a b H IH|x a b H IH]; intros lo N; [exact I| |].
  - destruct N as [N1 N2]. apply IH. eapply nondecr_weaken; [exact N1|exact N2].
  - destruct N as [N1 N2]. split; [exact N1|]. apply IH. exact N2.
Qed.

Section Turns.
Context {St Lo C R : Type}.
Variable (code : St -> Lo -> act St Lo C R) (l0 : Lo).
(** A NextVal by itself: begun, with the readings it has made; and done. *)
Inductive begun : St -> list C -> St -> Lo -> Prop :=
| bg_here s : begun s [] s l0
| bg_go s clk s1 l s2 l2 : begun s clk s1 l -> code s1 l = Go s2 l2 -> begun s clk s2 l2
| bg_ask s clk s1 l k now s2 l2 : begun s clk s1 l -> code s1 l = Ask k -> k now = (s2, l2) -> begun s (clk ++ [now]) s2 l2.
Definition done (s : St) (clk : list C) (s2 : St) (r : R) : Prop := exists s1 l, begun s clk s1 l /\ code s1 l = Ret s2 r.
(** One NextVal after the other. *)
Inductive turns (s0 : St) : list (list C * R) -> St -> Prop :=
| tn_nil : turns s0 [] s0
| tn_one cs s1 clk s2 r : turns s0 cs s1 -> done s1 clk s2 r -> turns s0 (cs ++ [(clk, r)]) s2.
Definition quiet (w : who Lo R) : Prop := match w with Idle | Wants => True | _ => False end.
Definition ordered (s0 : St) (g : shared St Lo R) (used : list C) : Prop :=
  exists cs s1, turns s0 cs s1 /\ map snd (sh_log g) = map snd cs /\
  match sh_lock g with
  | None => sh_obj g = s1 /\ used = concat (map fst cs) /\ Forall quiet (sh_th g)
  | Some t => (forall i w, i <> t -> nth_error (sh_th g) i = Some w -> quiet w) /\
    ((exists l clk, nth_error (sh_th g) t = Some (Runs l) /\ begun s1 clk (sh_obj g) l /\ used = concat (map fst cs) ++ clk) \/
     (exists r clk, nth_error (sh_th g) t = Some (Leaves r) /\ done s1 clk (sh_obj g) r /\ used = concat (map fst cs) ++ clk))
  end.
Lemma put_same (l : list (who Lo R)) t w : (t < length l)%nat -> nth_error (put l t w) t = Some w.
Proof. intros H. unfold put. rewrite nth_error_app2 by (rewrite firstn_length; lia). rewrite firstn_length, Nat.min_l by lia. rewrite Nat.sub_diag. reflexivity. Qed.
Lemma put_other (l : list (who Lo R)) t w i : (t < length l)%nat -> i <> t -> nth_error (put l t w) i = nth_error l i.
Proof.
  intros H N. unfold put. destruct (Nat.lt_ge_cases i t) as [L|L].
  - rewrite nth_error_app1 by (rewrite firstn_length; lia). rewrite <- (firstn_skipn t l) at 2. rewrite nth_error_app1 by (rewrite firstn_length; lia). reflexivity.
  - rewrite nth_error_app2 by (rewrite firstn_length; lia). rewrite firstn_length, Nat.min_l by lia. destruct (i - t)%nat as [|d] eqn:D; [lia|]. cbn [app nth_error].
    rewrite <- (firstn_skipn (S t) l) at 2. rewrite nth_error_app2 by (rewrite firstn_length; lia). f_equal. rewrite firstn_length. lia.
Qed.
Lemma put_quiet (l : list (who Lo R)) t w : Forall quiet l -> quiet w -> Forall quiet (put l t w).
Proof.
  intros H W. unfold put. rewrite Forall_forall in H. apply Forall_forall. intros x Hx. apply in_app_or in Hx as [Hx|[<-|Hx]]; [|exact W|]; apply H.
  - rewrite <- (firstn_skipn t l). apply in_or_app. auto.
  - rewrite <- (firstn_skipn (S t) l). apply in_or_app. auto.
Qed.
Lemma lt_of (l : list (who Lo R)) t w : nth_error l t = Some w -> (t < length l)%nat.
Proof. intros H. apply nth_error_Some. congruence. Qed.
Lemma quiet_put (l : list (who Lo R)) t w : (t < length l)%nat -> quiet w -> (forall i x, i <> t -> nth_error l i = Some x -> quiet x) -> Forall quiet (put l t w).
Proof.
  intros L W H. apply Forall_forall. intros x Hx. apply In_nth_error in Hx as [i Hi]. destruct (Nat.eq_dec i t) as [->|N].
  - rewrite put_same in Hi by exact L. injection Hi as <-. exact W.
  - rewrite put_other in Hi by assumption. exact (H i x N Hi).
Qed.
Lemma ordered_call s0 g used t : ordered s0 g used -> nth_error (sh_th g) t = Some Idle ->
  ordered s0 (Sh (sh_obj g) (sh_lock g) (put (sh_th g) t Wants) (sh_log g)) used.
Proof.
  intros (cs & s1 & T & Lg & O) E. pose proof (lt_of _ _ _ E) as L. exists cs, s1. split; [exact T|]. split; [exact Lg|]. cbn [sh_lock sh_obj sh_th].
  destruct (sh_lock g) as [u|].
  - destruct O as [Q O].
    assert (Nu : u <> t) by (intros ->; destruct O as [(l & clk & X & _)|(r & clk & X & _)]; congruence).
    split.
    + intros i w Ni Hi. destruct (Nat.eq_dec i t) as [->|N]; [rewrite put_same in Hi by exact L; injection Hi as <-; exact I|]. rewrite put_other in Hi by assumption. exact (Q i w Ni Hi).
    + rewrite put_other by assumption. exact O.
  - destruct O as (O1 & O2 & O3). split; [exact O1|]. split; [exact O2|]. apply put_quiet; [exact O3|exact I].
Qed.
Lemma ordered_move s0 g used t now : ordered s0 g used -> exists more, (more = [] \/ more = [now]) /\ ordered s0 (sh_step code l0 g (Move t now)) (used ++ more).
Proof.
  intros H. cbn [sh_step]. destruct (nth_error (sh_th g) t) as [w|] eqn:E; [|exists []; rewrite app_nil_r; auto].
  pose proof (lt_of _ _ _ E) as L. destruct w as [| |l|r].
  - exists []; rewrite app_nil_r; auto.
  - destruct (sh_lock g) as [u|] eqn:Lk; [exists []; rewrite app_nil_r; auto|]. exists []. rewrite app_nil_r. split; [auto|].
    destruct H as (cs & s1 & T & Lg & O). rewrite Lk in O. destruct O as (O1 & O2 & O3). exists cs, s1. split; [exact T|]. split; [exact Lg|]. cbn [sh_lock sh_obj sh_th]. split.
    + intros i w Ni Hi. rewrite put_other in Hi by assumption. rewrite Forall_forall in O3. apply O3. eapply nth_error_In; exact Hi.
    + left. exists l0, []. rewrite put_same by exact L. rewrite app_nil_r. split; [reflexivity|]. split; [rewrite O1; constructor|exact O2].
  - destruct H as (cs & s1 & T & Lg & O). destruct (sh_lock g) as [u|] eqn:Lk.
    2: { exfalso. destruct O as (_ & _ & O3). rewrite Forall_forall in O3. exact (O3 _ (nth_error_In _ _ E)). }
    destruct O as [Q O]. destruct (Nat.eq_dec u t) as [->|N].
    2: { exfalso. exact (Q t _ (fun X => N (eq_sym X)) E). }
    destruct O as [(l' & clk & E' & B & U)|(r & clk & E' & _)]; [|congruence]. assert (l' = l) by congruence. subst l'.
    assert (QP : forall w i x, i <> t -> nth_error (put (sh_th g) t w) i = Some x -> quiet x) by (intros w i x Ni Hi; rewrite put_other in Hi by assumption; exact (Q i x Ni Hi)).
    destruct (code (sh_obj g) l) as [s2 l2|k|s2 r] eqn:Cd.
    + exists []. rewrite app_nil_r. split; [auto|]. exists cs, s1. split; [exact T|]. split; [exact Lg|]. cbn [sh_lock sh_obj sh_th]. split; [apply QP|]. left. exists l2, clk.
      rewrite put_same by exact L. split; [reflexivity|]. split; [econstructor 2; [exact B|exact Cd]|exact U].
    + destruct (k now) as [s2 l2] eqn:K. exists [now]. split; [auto|]. exists cs, s1. split; [exact T|]. split; [exact Lg|]. cbn [sh_lock sh_obj sh_th]. split; [apply QP|]. left. exists l2, (clk ++ [now]).
      rewrite put_same by exact L. split; [reflexivity|]. split; [econstructor 3; [exact B|exact Cd|exact K]|rewrite U, app_assoc; reflexivity].
    + exists []. rewrite app_nil_r. split; [auto|]. exists cs, s1. split; [exact T|]. split; [exact Lg|]. cbn [sh_lock sh_obj sh_th]. split; [apply QP|]. right. exists r, clk.
      rewrite put_same by exact L. split; [reflexivity|]. split; [exists (sh_obj g), l; split; [exact B|exact Cd]|exact U].
  - destruct H as (cs & s1 & T & Lg & O). destruct (sh_lock g) as [u|] eqn:Lk.
    2: { exfalso. destruct O as (_ & _ & O3). rewrite Forall_forall in O3. exact (O3 _ (nth_error_In _ _ E)). }
    destruct O as [Q O]. destruct (Nat.eq_dec u t) as [->|N].
    2: { exfalso. exact (Q t _ (fun X => N (eq_sym X)) E). }
    destruct O as [(l' & clk & E' & _)|(r' & clk & E' & D & U)]; [congruence|]. assert (r' = r) by congruence. subst r'.
    exists []. rewrite app_nil_r. split; [auto|]. exists (cs ++ [(clk, r)]), (sh_obj g). split; [econstructor; [exact T|exact D]|]. split; [cbn [sh_log]; rewrite !map_app, Lg; reflexivity|].
    cbn [sh_lock sh_obj sh_th]. split; [reflexivity|]. split; [rewrite map_app, concat_app; cbn [map concat fst]; rewrite app_nil_r; exact U|].
    apply quiet_put; [exact L|exact I|exact Q].
Qed.
Lemma ordered_run es : forall s0 n, exists used, ordered s0 (sh_run code l0 (sh_start n s0) es) used /\ picked used (times es).
Proof.
  intros s0 n. induction es as [|e es IH] using rev_ind.
  - exists []. split; [|constructor]. exists [], s0. split; [constructor|]. split; [reflexivity|]. cbn. split; [reflexivity|]. split; [reflexivity|]. apply Forall_forall. intros x Hx. apply repeat_spec in Hx. subst. exact I.
  - destruct IH as (used & O & P). unfold sh_run in *. rewrite fold_left_app. cbn [fold_left]. unfold times in *. rewrite flat_map_app. destruct e as [t|t now].
    + exists used. cbn [flat_map app]. rewrite app_nil_r. split; [|exact P]. cbn [sh_step]. destruct (nth_error _ t) as [[| | |]|] eqn:E; try exact O. apply ordered_call; assumption.
    + destruct (ordered_move _ _ _ t now O) as (more & M & O'). exists (used ++ more). split; [exact O'|]. cbn [flat_map app]. destruct (picked_snoc _ _ now P) as [P1 P2].
      destruct M as [->| ->]; [rewrite app_nil_r; exact P1|exact P2].
Qed.
(** Whatever the goroutines do, the values handed out are those of one NextVal after the other. *)
Theorem C126_one_by_one : forall s0 n es, exists cs s1,
  turns s0 cs s1 /\ handed (sh_run code l0 (sh_start n s0) es) = map snd cs /\ picked (concat (map fst cs)) (times es) /\
  (sh_lock (sh_run code l0 (sh_start n s0) es) = None -> sh_obj (sh_run code l0 (sh_start n s0) es) = s1).
Proof.
  intros s0 n es. destruct (ordered_run es s0 n) as (used & (cs & s1 & T & Lg & O) & P). exists cs, s1. split; [exact T|]. split; [exact Lg|].
  destruct (sh_lock _) as [u|]; [|destruct O as (O1 & O2 & _); subst used; auto]. split; [|discriminate].
  destruct O as [_ [(l & clk & _ & _ & ->)|(r & clk & _ & _ & ->)]]; eapply picked_left; exact P.
Qed.
End Turns.

(** *** The counter of the packets *)
Lemma cyc_begun s clk s1 l : begun cyc_code O s clk s1 l -> (l = O /\ s1 = s) \/ (l = 1%nat /\ s1 = fst (cyc_next s)).
Proof.
  induction 1 as [s|s clk s1 l s2 l2 B IH E|s clk s1 l k now s2 l2 B IH E K]; [auto| |].
  - destruct IH as [[-> ->]|[-> ->]]; cbn in E; [injection E as <- <-; auto|discriminate E].
  - destruct IH as [[-> ->]|[-> ->]]; cbn in E; discriminate E.
Qed.
Lemma cyc_done s clk s2 r : done cyc_code O s clk s2 r -> cyc_next s = (s2, r).
Proof. intros (s1 & l & B & E). apply cyc_begun in B as [[-> ->]|[-> ->]]; cbn in E; [discriminate E|]. injection E as <- <-. reflexivity. Qed.
Lemma cyc_turns s0 cs s1 : turns cyc_code O s0 cs s1 -> forall m, run_gen cyc_next (length cs + m) s0 = map snd cs ++ run_gen cyc_next m s1.
Proof.
  induction 1 as [|cs s1 clk s2 r T IH D]; intros m; [reflexivity|]. rewrite app_length, map_app, <- app_assoc, <- Nat.add_assoc, IH. cbn [length Nat.add run_gen map snd app].
  apply cyc_done in D. rewrite D. reflexivity.
Qed.
Theorem C126_cycle : forall s0 n es, let vs := handed (sh_run cyc_code O (sh_start n s0) es) in
  vs = run_gen cyc_next (length vs) s0 /\
  forall i j v w, nth_error vs i = Some v -> nth_error vs j = Some w -> i <> j -> Z.abs (Z.of_nat i - Z.of_nat j) < 2 ^ 26 -> v <> w.
Proof.
  intros s0 n es. destruct (C126_one_by_one cyc_code O s0 n es) as (cs & s1 & T & H & _). cbv zeta. rewrite H.
  pose proof (cyc_turns _ _ _ T O) as G. cbn [run_gen] in G. rewrite app_nil_r, Nat.add_0_r in G. rewrite map_length. split; [congruence|]. rewrite <- G.
  intros i j v w. apply C09_unique_in_period.
Qed.
(** *** 64 bits *)
Definition sf_at (s : sf) (clk : list Z) (s1 : sf) (l : sf_pc) : Prop :=
  let fin now q (rest : list Z) := if sf_timestampMax <? now - sf_epoch then Some (Sf (sf_ts s) (sf_worker s) (sf_dc s) q, 0, rest)
      else Some (Sf now (sf_worker s) (sf_dc s) q, sf_pack (now - sf_epoch) (sf_dc s) (sf_worker s) q, rest) in
  let with_q q := Sf (sf_ts s) (sf_worker s) (sf_dc s) q in let q := Z.land (sf_seq s + 1) sf_sequenceMask in
  match l with
  | FNow => clk = [] /\ s1 = s
  | FSame now => clk = [now] /\ s1 = s
  | FInc now => clk = [now] /\ s1 = s /\ sf_ts s = now
  | FFull now => clk = [now] /\ s1 = with_q q /\ sf_ts s = now
  | FWait now => exists more, clk = sf_ts s :: more /\ s1 = with_q q /\ q = 0 /\
      forall rest, spin (sf_ts s) (more ++ rest) = if now <=? sf_ts s then spin (sf_ts s) rest else Some (now, rest)
  | FMax now => exists q1, s1 = with_q q1 /\ forall rest, sf_next s (clk ++ rest) = fin now q1 rest
  | FRet t => forall rest, sf_next s (clk ++ rest) = Some (s1, sf_pack t (sf_dc s1) (sf_worker s1) (sf_seq s1), rest)
  end.
Lemma sf_begun s clk s1 l : begun sf_code FNow s clk s1 l -> sf_at s clk s1 l.
Proof.
  induction 1 as [s|s clk s1 l s2 l2 B IH E|s clk s1 l k now s2 l2 B IH E K]; [cbn; auto| |]; unfold sf_at in IH; cbv zeta in IH; destruct l as [|x|x|x|x|x|x]; cbn [sf_code] in E; try discriminate E.
  - destruct IH as [-> ->]. destruct (Z.eqb_spec (sf_ts s) x) as [Y|Y]; injection E as <- <-; unfold sf_at; cbv zeta; [auto|]. exists 0. split; [reflexivity|]. intros rest. cbn [app]. unfold sf_next. apply Z.eqb_neq in Y. rewrite Y. reflexivity.
  - destruct IH as (-> & -> & Y). injection E as <- <-. unfold sf_at; cbv zeta. auto.
  - destruct IH as (-> & -> & Y). cbn [sf_seq] in E. destruct (Z.eqb_spec (Z.land (sf_seq s + 1) sf_sequenceMask) 0) as [X|X]; injection E as <- <-; unfold sf_at; cbv zeta.
    + exists []. rewrite <- Y. split; [reflexivity|]. split; [reflexivity|]. split; [exact X|]. intros rest. rewrite Z.leb_refl. reflexivity.
    + exists (Z.land (sf_seq s + 1) sf_sequenceMask). split; [reflexivity|]. intros rest. cbn [app]. unfold sf_next. rewrite Y, Z.eqb_refl. apply Z.eqb_neq in X. rewrite X. rewrite <- Y. reflexivity.
  - destruct IH as (more & -> & -> & X & G). cbn [sf_ts] in E. destruct (x <=? sf_ts s) eqn:Y; [discriminate E|]. injection E as <- <-. unfold sf_at; cbv zeta.
    exists (Z.land (sf_seq s + 1) sf_sequenceMask). split; [reflexivity|]. intros rest. cbn [app]. unfold sf_next. rewrite Z.eqb_refl, X, Z.eqb_refl, G. reflexivity.
  - destruct IH as (q & -> & G). destruct (sf_timestampMax <? x - sf_epoch) eqn:Y; [discriminate E|]. injection E as <- <-. unfold sf_at. intros rest. rewrite G. reflexivity.
  - injection E as <-. destruct IH as [-> ->]. injection K as <- <-. unfold sf_at; cbv zeta. auto.
  - destruct (sf_ts s1 =? x); discriminate E.
  - destruct (sf_seq s1 =? 0); discriminate E.
  - destruct IH as (more & -> & -> & X & G). cbn [sf_ts] in E. destruct (x <=? sf_ts s) eqn:Y; [|discriminate E]. injection E as <-. injection K as <- <-. unfold sf_at; cbv zeta.
    exists (more ++ [now]). split; [reflexivity|]. split; [reflexivity|]. split; [exact X|]. intros rest. rewrite <- app_assoc, G. reflexivity.
  - destruct (sf_timestampMax <? x - sf_epoch); discriminate E.
Qed.
Lemma sf_done s clk s2 r : done sf_code FNow s clk s2 r -> forall rest, sf_next s (clk ++ rest) = Some (s2, r, rest).
Proof.
  intros (s1 & l & B & E) rest. apply sf_begun in B. unfold sf_at in B; cbv zeta in B. destruct l as [|x|x|x|x|x|x]; cbn [sf_code] in E; try discriminate E.
  - destruct (sf_ts s1 =? x); discriminate E.
  - destruct (sf_seq s1 =? 0); discriminate E.
  - destruct (x <=? sf_ts s1); discriminate E.
  - destruct B as (q & -> & G). rewrite G. destruct (sf_timestampMax <? x - sf_epoch); [|discriminate E]. injection E as <- <-. reflexivity.
  - injection E as <- <-. apply B.
Qed.
Lemma clk_turns {St Lo} (code : St -> Lo -> act St Lo Z Z) l0 next :
  (forall s clk s2 r, done code l0 s clk s2 r -> forall rest, next s (clk ++ rest) = Some (s2, r, rest)) ->
  forall s0 cs s1, turns code l0 s0 cs s1 -> forall m rest, run_clk next (length cs + m) s0 (concat (map fst cs) ++ rest) = map snd cs ++ run_clk next m s1 rest.
Proof.
  intros D s0 cs s1. induction 1 as [|cs s1 clk s2 r T IH E]; intros m rest; [reflexivity|]. rewrite app_length, !map_app, concat_app, <- !app_assoc, <- Nat.add_assoc, IH. cbn [length Nat.add map snd fst concat app].
  rewrite app_nil_r. cbn [run_clk]. rewrite (D _ _ _ _ E). reflexivity.
Qed.
Lemma clk_all {St Lo} (code : St -> Lo -> act St Lo Z Z) l0 next :
  (forall s clk s2 r, done code l0 s clk s2 r -> forall rest, next s (clk ++ rest) = Some (s2, r, rest)) ->
  forall s0 n es, let vs := handed (sh_run code l0 (sh_start n s0) es) in exists clk, picked clk (times es) /\ vs = run_clk next (length vs) s0 clk.
Proof.
  intros D s0 n es. destruct (C126_one_by_one code l0 s0 n es) as (cs & s1 & T & H & P & _). cbv zeta. rewrite H. exists (concat (map fst cs)). split; [exact P|].
  pose proof (clk_turns code l0 next D s0 cs s1 T O []) as G. cbn [run_clk] in G. rewrite !app_nil_r, Nat.add_0_r in G. rewrite map_length. congruence.
Qed.
Theorem C126_long : forall d w n es, 0 <= d < 8 -> 0 <= w < 128 -> nondecr_from 0 (times es) ->
  (forall x, In x (times es) -> epoch2020 <= x <= epoch2020 + max41) ->
  StronglySorted Z.lt (handed (sh_run sf_code FNow (sh_start n (NewSnowflake d w)) es)).
Proof.
  intros d w n es Hd Hw N X. destruct (clk_all sf_code FNow sf_next sf_done (NewSnowflake d w) n es) as (clk & P & ->).
  apply C11_increasing; [exact Hd|exact Hw|eapply picked_nondecr; [exact P|exact N]|]. intros x Hx. apply X. eapply picked_in; [exact P|exact Hx].
Qed.
(** *** 32 bits *)
Definition s32_at (s : sf32) (clk : list Z) (s1 : sf32) (l : sf_pc) : Prop :=
  let fin now q (rest : list Z) := Some (Sf32 now (s32_dc s) (s32_worker s) q, s32_pack now (s32_dc s) (s32_worker s) q, rest) in
  let with_q q := Sf32 (s32_sec s) (s32_dc s) (s32_worker s) q in let q := Z.land (s32_seq s + 1) 511 in
  match l with
  | FNow => clk = [] /\ s1 = s
  | FSame now => clk = [now] /\ s1 = s
  | FInc now => clk = [now] /\ s1 = s /\ s32_sec s = now
  | FFull now => clk = [now] /\ s1 = with_q q /\ s32_sec s = now
  | FWait now => exists more, clk = s32_sec s :: more /\ s1 = with_q q /\ q = 0 /\
      forall rest, spin (s32_sec s) (more ++ rest) = if now <=? s32_sec s then spin (s32_sec s) rest else Some (now, rest)
  | FMax now => exists q1, s1 = with_q q1 /\ forall rest, s32_next s (clk ++ rest) = fin now q1 rest
  | FRet t => forall rest, s32_next s (clk ++ rest) = Some (s1, s32_pack (s32_sec s1) (s32_dc s1) (s32_worker s1) (s32_seq s1), rest)
  end.
Lemma s32_begun s clk s1 l : begun s32_code FNow s clk s1 l -> s32_at s clk s1 l.
Proof.
  induction 1 as [s|s clk s1 l s2 l2 B IH E|s clk s1 l k now s2 l2 B IH E K]; [cbn; auto| |]; unfold s32_at in IH; cbv zeta in IH; destruct l as [|x|x|x|x|x|x]; cbn [s32_code] in E; try discriminate E.
  - destruct IH as [-> ->]. destruct (Z.eqb_spec (s32_sec s) x) as [Y|Y]; injection E as <- <-; unfold s32_at; cbv zeta; [auto|]. exists 0. split; [reflexivity|]. intros rest. cbn [app]. unfold s32_next. apply Z.eqb_neq in Y. rewrite Y. reflexivity.
  - destruct IH as (-> & -> & Y). injection E as <- <-. unfold s32_at; cbv zeta. auto.
  - destruct IH as (-> & -> & Y). cbn [s32_seq] in E. destruct (Z.eqb_spec (Z.land (s32_seq s + 1) 511) 0) as [X|X]; injection E as <- <-; unfold s32_at; cbv zeta.
    + exists []. rewrite <- Y. split; [reflexivity|]. split; [reflexivity|]. split; [exact X|]. intros rest. rewrite Z.leb_refl. reflexivity.
    + exists (Z.land (s32_seq s + 1) 511). split; [reflexivity|]. intros rest. cbn [app]. unfold s32_next. rewrite Y, Z.eqb_refl. apply Z.eqb_neq in X. rewrite X. reflexivity.
  - destruct IH as (more & -> & -> & X & G). cbn [s32_sec] in E. destruct (x <=? s32_sec s) eqn:Y; [discriminate E|]. injection E as <- <-. unfold s32_at; cbv zeta.
    exists (Z.land (s32_seq s + 1) 511). split; [reflexivity|]. intros rest. cbn [app]. unfold s32_next. rewrite Z.eqb_refl, X, Z.eqb_refl, G. reflexivity.
  - destruct IH as (q & -> & G). injection E as <- <-. unfold s32_at. intros rest. rewrite G. reflexivity.
  - injection E as <-. destruct IH as [-> ->]. injection K as <- <-. unfold s32_at; cbv zeta. auto.
  - destruct (s32_sec s1 =? x); discriminate E.
  - destruct (s32_seq s1 =? 0); discriminate E.
  - destruct IH as (more & -> & -> & X & G). cbn [s32_sec] in E. destruct (x <=? s32_sec s) eqn:Y; [|discriminate E]. injection E as <-. injection K as <- <-. unfold s32_at; cbv zeta.
    exists (more ++ [now]). split; [reflexivity|]. split; [reflexivity|]. split; [exact X|]. intros rest. rewrite <- app_assoc, G. reflexivity.
Qed.
Lemma s32_done s clk s2 r : done s32_code FNow s clk s2 r -> forall rest, s32_next s (clk ++ rest) = Some (s2, r, rest).
Proof.
  intros (s1 & l & B & E) rest. apply s32_begun in B. unfold s32_at in B; cbv zeta in B. destruct l as [|x|x|x|x|x|x]; cbn [s32_code] in E; try discriminate E.
  - destruct (s32_sec s1 =? x); discriminate E.
  - destruct (s32_seq s1 =? 0); discriminate E.
  - destruct (x <=? s32_sec s1); discriminate E.
  - injection E as <- <-. apply B.
Qed.
Theorem C126_short : forall d w n es, 0 <= d < 4 -> 0 <= w < 8 -> nondecr_from 0 (times es) -> (forall x, In x (times es) -> x < 86400) ->
  StronglySorted Z.lt (handed (sh_run s32_code FNow (sh_start n (NewSnowflake32 d w)) es)).
Proof.
  intros d w n es Hd Hw N X. destruct (clk_all s32_code FNow s32_next s32_done (NewSnowflake32 d w) n es) as (clk & P & ->).
  apply C14_increasing_in_day; [exact Hd|exact Hw|eapply picked_nondecr; [exact P|exact N]|]. intros x Hx. apply X. eapply picked_in; [exact P|exact Hx].
Qed.
(** *** SGIP *)
Definition sg_part (s : sgseq) (k : nat) (t : tod) : Z :=
  match k with
  | O => sg_ts s
  | 1%nat => u32 (t_mon t * 100000000)
  | 2%nat => u32 (u32 (t_mon t * 100000000) + u32 (t_day t * 1000000))
  | 3%nat => u32 (u32 (u32 (t_mon t * 100000000) + u32 (t_day t * 1000000)) + u32 (t_hour t * 10000))
  | 4%nat => u32 (u32 (u32 (u32 (t_mon t * 100000000) + u32 (t_day t * 1000000)) + u32 (t_hour t * 10000)) + u32 (t_min t * 100))
  | _ => sg_ts (fst (sg_next s t))
  end.
Lemma sg_begun s clk s1 l : begun sg_code GSeq s clk s1 l ->
  match l with
  | GSeq => clk = [] /\ s1 = s
  | GNow => clk = [] /\ s1 = SgSeq (sg_node s) (sg_ts s) (Z.land (u32 (sg_seq s + 31)) 4294967295)
  | GAdd k t => (k <= 5)%nat /\ clk = [t] /\ s1 = SgSeq (sg_node s) (sg_part s k t) (Z.land (u32 (sg_seq s + 31)) 4294967295)
  end.
Proof.
  induction 1 as [s|s clk s1 l s2 l2 B IH E|s clk s1 l k now s2 l2 B IH E K]; [cbn; auto| |]; destruct l as [| |j t].
  - destruct IH as [-> ->]. injection E as <- <-. auto.
  - discriminate E.
  - destruct IH as (L & -> & ->). do 5 (destruct j as [|j]; [injection E as <- <-; split; [lia|]; split; reflexivity|]). discriminate E.
  - discriminate E.
  - destruct IH as [-> ->]. injection E as <-. injection K as <- <-. split; [lia|]. split; reflexivity.
  - do 5 (destruct j as [|j]; [discriminate E|]). discriminate E.
Qed.
Lemma sg_done s clk s2 r : done sg_code GSeq s clk s2 r -> exists t, clk = [t] /\ sg_next s t = (s2, r).
Proof.
  intros (s1 & l & B & E). apply sg_begun in B. destruct l as [| |j t]; [discriminate E|discriminate E|]. destruct B as (L & -> & ->). exists t. split; [reflexivity|].
  do 5 (destruct j as [|j]; [discriminate E|]). injection E as <- <-. reflexivity.
Qed.
Lemma sg_turns s0 cs s1 : turns sg_code GSeq s0 cs s1 -> length (concat (map fst cs)) = length cs /\
  (forall rest, sg_run s0 (concat (map fst cs) ++ rest) = map snd cs ++ sg_run s1 rest) /\
  s1 = match rev cs with [] => s0 | (_, (a, b, c)) :: _ => SgSeq a b c end.
Proof.
  induction 1 as [|cs s1 clk s2 r T (I1 & I2 & I3) D]; [repeat split|]. apply sg_done in D as (t & -> & D). split; [|split].
  - rewrite map_app, concat_app, !app_length, I1. reflexivity.
  - intros rest. rewrite !map_app, concat_app, <- !app_assoc, I2. cbn [map concat fst snd app sg_run]. rewrite D. reflexivity.
  - rewrite rev_app_distr. cbn [rev app]. unfold sg_next in D. injection D as <- <-. reflexivity.
Qed.
Theorem C126_sgip : forall s0 n es, let vs := handed (sh_run sg_code GSeq (sh_start n s0) es) in
  exists clk, picked clk (times es) /\ length clk = length vs /\ vs = sg_run s0 clk /\
  forall i j v w, nth_error vs i = Some v -> nth_error vs j = Some w -> i <> j -> Z.abs (Z.of_nat i - Z.of_nat j) < 2 ^ 32 -> snd v <> snd w.
Proof.
  intros s0 n es. destruct (C126_one_by_one sg_code GSeq s0 n es) as (cs & s1 & T & H & P & _). cbv zeta. rewrite H. destruct (sg_turns _ _ _ T) as (L & G & _).
  specialize (G []). cbn [sg_run] in G. rewrite !app_nil_r in G. exists (concat (map fst cs)). split; [exact P|]. split; [rewrite map_length; exact L|]. split; [congruence|].
  rewrite <- G. apply C17_unique.
Qed.
(** Asking for the current value while nobody holds the lock gives the last one handed out ... *)
Theorem C127_partial : forall s0 n es, let g := sh_run sg_code GSeq (sh_start n s0) es in
  sh_lock g = None -> CurVal (sh_obj g) = last (handed g) (sg_node s0, sg_ts s0, sg_seq s0).
Proof.
  intros s0 n es g Lk. destruct (C126_one_by_one sg_code GSeq s0 n es) as (cs & s1 & T & H & P & O). subst g. rewrite (O Lk), H. destruct (sg_turns _ _ _ T) as (_ & _ & ->).
  clear. induction cs as [|[c [[x y] z]] cs _] using rev_ind; [reflexivity|]. rewrite rev_app_distr, map_app. cbn [rev app map snd]. rewrite last_last. reflexivity.
Qed.
(** ... but not in the middle of a NextVal: in every generator, whenever two calls fall in different seconds, the second call shows in between the new count with the old time,
    which is what neither of the two calls hands out. *)
Theorem C127_refuted : forall s0 t1 t2, let ts t := sg_ts (fst (sg_next s0 t)) in ts t1 <> ts t2 ->
  let first := Call 0 :: repeat (Move 0 t1) 10 in let second := Call 0 :: repeat (Move 0 t2) 10 in
  let mid := sh_run sg_code GSeq (sh_start 2 s0) (first ++ firstn 3 second) in
  exists a b, handed (sh_run sg_code GSeq (sh_start 2 s0) (first ++ second)) = [a; b] /\ handed mid = [a] /\ CurVal (sh_obj mid) <> a /\ CurVal (sh_obj mid) <> b.
Proof.
  intros s0 t1 t2 ts N. cbv zeta. eexists _, _. split; [cbn; reflexivity|]. split; [cbn; reflexivity|]. split.
  - intros X. apply (f_equal snd) in X. cbn in X. rewrite !land_ffffffff in X. rewrite Zplus_mod_idemp_l in X. unfold u32 in X. pose proof (Z.mod_eq (sg_seq s0 + 31 + 31) (2 ^ 32) ltac:(lia)). pose proof (Z.mod_eq (sg_seq s0 + 31) (2 ^ 32) ltac:(lia)). lia.
  - intros X. apply N. apply (f_equal (fun v => snd (fst v))) in X. exact X.
Qed.
(** *** BCD *)
Lemma bcd_begun s clk s1 l : begun bcd_code BNow s clk s1 l ->
  match l with
  | BNow => clk = [] /\ s1 = s
  | BSame mi => s1 = s /\ exists m, clk = [m] /\ mi = minute_str m
  | BStamp mi => exists m, clk = [m] /\ mi = minute_str m /\ s1 = Bcd (bcd_worker s) (bcd_ts s) (if bytes_eqb (bcd_ts s) mi then (bcd_seq s + 1) mod 1000000 else 0)
  | BRet => exists m, clk = [m] /\ s1 = Bcd (bcd_worker s) (minute_str m) (if bytes_eqb (bcd_ts s) (minute_str m) then (bcd_seq s + 1) mod 1000000 else 0)
  end.
Proof.
  induction 1 as [s|s clk s1 l s2 l2 B IH E|s clk s1 l k now s2 l2 B IH E K]; [cbn; auto| |]; destruct l as [|mi|mi|]; cbn [bcd_code] in E; try discriminate E.
  - destruct IH as (-> & m & -> & ->). injection E as <- <-. exists m. auto.
  - destruct IH as (m & -> & -> & ->). injection E as <- <-. exists m. auto.
  - destruct IH as [-> ->]. injection E as <-. injection K as <- <-. split; [reflexivity|]. exists now. auto.
Qed.
Lemma bcd_done s clk s2 r : done bcd_code BNow s clk s2 r -> exists m, clk = [m] /\ bcd_next s (minute_str m) = (v <- r ;; Ok (s2, v)).
Proof.
  intros (s1 & l & B & E). apply bcd_begun in B. destruct l as [|mi|mi|]; cbn [bcd_code] in E; try discriminate E. destruct B as (m & -> & ->). exists m. split; [reflexivity|].
  pose proof (f_equal (fun a => match a with Ret x _ => x | _ => s2 end) E) as E1. pose proof (f_equal (fun a => match a with Ret _ x => x | _ => r end) E) as E2. cbv beta iota in E1, E2. rewrite <- E1, <- E2. clear E E1 E2.
  unfold bcd_next. cbn [bind bcd_worker bcd_ts bcd_seq]. destruct (copy_at _ 0 3 _) as [f1| |]; cbn [bind]; [|reflexivity|reflexivity]. destruct (copy_at f1 3 7 _) as [f2| |]; cbn [bind]; [|reflexivity|reflexivity].
  destruct (IntToFixStr _ 6) as [q| |]; cbn [bind]; [|reflexivity|reflexivity]. destruct (copy_at f2 7 10 _); reflexivity.
Qed.
Lemma bcd_turns s0 cs s1 : turns bcd_code BNow s0 cs s1 -> length (concat (map fst cs)) = length cs /\ forall rest vs, bcd_run s0 (concat (map fst cs) ++ rest) = Ok vs ->
  exists v1 v2, map snd cs = map Ok v1 /\ vs = v1 ++ v2 /\ bcd_run s1 rest = Ok v2.
Proof.
  induction 1 as [|cs s1 clk s2 r T [I1 I2] D]; [split; [reflexivity|]; intros rest vs E; exists [], vs; auto|]. apply bcd_done in D as (m & -> & D). split.
  - rewrite map_app, concat_app, !app_length, I1. reflexivity.
  - intros rest vs E. rewrite map_app, concat_app, <- app_assoc in E. destruct (I2 _ _ E) as (v1 & v2 & E1 & -> & E2). cbn [map concat fst app bcd_run] in E2. rewrite D in E2.
    destruct r as [v| |]; cbn [bind] in E2; [|discriminate E2|discriminate E2]. destruct (bcd_run s2 rest) as [v3| |] eqn:E3; cbn [bind] in E2; [|discriminate E2|discriminate E2]. injection E2 as <-.
    exists (v1 ++ [v]), v3. rewrite !map_app, E1, <- app_assoc. auto.
Qed.
Theorem C126_bcd : forall w s0 n es, NewBcdSequence w = Ok s0 -> (forall m, In m (times es) -> 0 <= m < 10 ^ 8) ->
  exists clk vs, picked clk (times es) /\ length clk = length vs /\ handed (sh_run bcd_code BNow (sh_start n s0) es) = map Ok vs /\ bcd_run s0 clk = Ok vs /\
  (nondecr_from 0 (times es) -> forall i j v, nth_error vs i = Some v -> nth_error vs j = Some v -> (i < j)%nat -> 1000000 <= Z.of_nat (j - i)).
Proof.
  intros w s0 n es W M. destruct (C126_one_by_one bcd_code BNow s0 n es) as (cs & s1 & T & H & P & _). destruct (bcd_turns _ _ _ T) as [L G].
  assert (M1 : Forall (fun m => 0 <= m < 10 ^ 8) (concat (map fst cs))) by (apply Forall_forall; intros m Hm; apply M; eapply picked_in; [exact P|exact Hm]).
  destruct (C16_format w _ M1) as (s & vs & W' & E & _). rewrite W in W'. injection W' as <-. destruct (G [] vs) as (v1 & v2 & E1 & -> & E2); [rewrite app_nil_r; exact E|]. cbn in E2. injection E2 as <-. rewrite app_nil_r in E.
  exists (concat (map fst cs)), v1. split; [exact P|]. split; [rewrite L; rewrite <- (map_length Ok v1), <- E1, map_length; reflexivity|]. split; [rewrite H; exact E1|]. split; [exact E|].
  intros N i j v Hi Hj Lt. exact (proj2 (C16_unique w _ s0 v1 i j v v W (picked_nondecr _ _ _ P N) M1 E Hi Hj Lt eq_refl)).
Qed.
(** Two goroutines: the second comes while the first is inside, and waits; then they interleave. *)
Definition rush {C} (k : nat) (now : C) : list (shev C) := [Call 0; Move 0 now; Call 1; Move 1 now; Move 0 now; Move 1 now] ++ repeat (Move 0 now) k ++ [Call 0] ++ repeat (Move 1 now) (k + 2) ++ repeat (Move 0 now) (k + 2).
Example C126_case :
  sh_log (sh_run cyc_code O (sh_start 2 (NewCycle 0 1)) (rush 2 tt)) = [(0%nat, 268435457); (1%nat, 268435458); (0%nat, 268435459)] /\
  sh_log (sh_run sf_code FNow (sh_start 2 (NewSnowflake 1 1)) (rush 8 1600000000005)) = [(0%nat, sf_pack 22192000005 1 1 0); (1%nat, sf_pack 22192000005 1 1 1); (0%nat, sf_pack 22192000005 1 1 2)] /\
  map snd (sh_log (sh_run sg_code GSeq (sh_start 2 (SgSeq 5 0 0)) (rush 9 (Tod 11 16 1 5 30)))) = [(5, 1116010530, 31); (5, 1116010530, 62); (5, 1116010530, 93)] /\
  (exists s, NewBcdSequence [49; 50] = Ok s /\ map snd (sh_log (sh_run bcd_code BNow (sh_start 2 s) (rush 5 11160105))) =
    map Ok [[0; 0; 18; 17; 22; 1; 5; 0; 0; 0]; [0; 0; 18; 17; 22; 1; 5; 0; 0; 1]; [0; 0; 18; 17; 22; 1; 5; 0; 0; 2]]) /\
  map snd (sh_log (sh_run s32_code FNow (sh_start 2 (NewSnowflake32 1 1)) (rush 8 3600))) = [s32_pack 3600 1 1 0; s32_pack 3600 1 1 1; s32_pack 3600 1 1 2].
Proof.
  split; [vm_compute; reflexivity|]. split; [vm_compute; reflexivity|]. split; [vm_compute; reflexivity|]. split; [exists (Bcd [0; 0; 18] [] 0); split; vm_compute; reflexivity|].
  vm_compute; reflexivity.
Qed.
Example C127_case :
  (let t1 := Tod 11 16 1 5 30 in let t2 := Tod 11 16 1 5 31 in sg_ts (fst (sg_next (SgSeq 5 0 0) t1)) <> sg_ts (fst (sg_next (SgSeq 5 0 0) t2)) /\
   CurVal (sh_obj (sh_run sg_code GSeq (sh_start 2 (SgSeq 5 0 0)) ((Call 0 :: repeat (Move 0 t1) 10) ++ [Call 0; Move 0 t2; Move 0 t2]))) = (5, 1116010530, 62)).
Proof. cbv zeta. split; [vm_compute; discriminate|vm_compute; reflexivity]. Qed.
Example C127_case_free : let g := sh_run sg_code GSeq (sh_start 2 (SgSeq 5 0 0)) (rush 9 (Tod 11 16 1 5 30)) in sh_lock g = None /\ CurVal (sh_obj g) = (5, 1116010530, 93).
Proof. vm_compute. split; reflexivity. Qed.
Print Assumptions C126_one_by_one.
Print Assumptions C126_cycle.
Print Assumptions C126_long.
Print Assumptions C126_short.
Print Assumptions C126_sgip.
Print Assumptions C126_bcd.
Print Assumptions C127_partial.
Print Assumptions C127_refuted.
